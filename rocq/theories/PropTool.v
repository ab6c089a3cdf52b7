(** Properties C48-C50: error strings, version check, command line tool. *)
From Coq Require Import String.
From Verif Require Import Base Uenv SpecNfc SpecLookup SpecUnicode SpecRegister Lookup Api Register Error SpecError ErrorProofs
  Version SpecVersion VersionProofs VersionTop Cli SpecCli CliProofs CliTop Ucd LookupExamples ApiExamples.
Local Open Scope list_scope.

(** C48. *)
Theorem C48_names : forall rc, rc <> IDN2_NO_CODESET ->
  (exists n, In (rc, n) header /\ strerror_name rc = n) \/ (~ defined rc /\ strerror_name rc = "IDN2_UNKNOWN"%string).
Proof. exact names. Qed.
Print Assumptions C48_names.
Theorem C48_names_distinct : forall a b, defined a -> strerror_name a = strerror_name b -> a = b.
Proof. exact names_injective. Qed.
Print Assumptions C48_names_distinct.
Theorem C48_names_refuted : exists rc n, In (rc, n) header /\ strerror_name rc <> n /\ ~ (exists c, In (c, strerror_name rc) header).
Proof. exact names_wrong. Qed.
Print Assumptions C48_names_refuted.
Theorem C48_messages :
  (forall rc, defined rc -> rc <> IDN2_INVALID_FLAGS ->
     strerror rc <> "Unknown error"%string /\ forall rc', strerror rc' = strerror rc -> rc' = rc) /\
  (forall rc, ~ defined rc -> strerror rc = "Unknown error"%string).
Proof. exact messages. Qed.
Print Assumptions C48_messages.
Theorem C48_messages_fit : forall rc w, In (rc, w) topics -> mentions (strerror rc) w.
Proof. exact topics_mentioned. Qed.
Print Assumptions C48_messages_fit.
Theorem C48_messages_refuted : exists rc, defined rc /\ strerror rc = "Unknown error"%string.
Proof. exact messages_missing. Qed.
Print Assumptions C48_messages_refuted.
(** A failed lookup with sensible flags is explained; so are the other functions' codes. *)
Theorem C48_lookup_explained : forall U src f rc, nfc_ok U -> c_string src -> zlen src < two64 ->
  lookup_u8 U src f = Fail rc -> ~ bad_flags f -> exists w, In (rc, w) topics /\ mentions (strerror rc) w.
Proof. exact lookup_explained. Qed.
Print Assumptions C48_lookup_explained.
Theorem C48_others_explained : forall rc, In rc unicode_errors \/ In rc register_errors -> exists w, In (rc, w) topics /\ mentions (strerror rc) w.
Proof. intros rc [I | I]; [ exact (unicode_explained rc I) | exact (register_explained rc I) ]. Qed.
Print Assumptions C48_others_explained.
Example C48_case : defined (-301) /\ strerror_name (-301) = "IDN2_2HYPHEN"%string /\ strerror (-301) = "string contains forbidden two hyphens pattern"%string /\
  ~ defined 17 /\ strerror_name 17 = "IDN2_UNKNOWN"%string.
Proof. repeat split; vm_compute; try tauto; intuition discriminate. Qed.

(** C49. *)
Theorem C49_releases : forall version vv req rv, release version vv -> release req rv ->
  (not_newer rv vv -> check_version version (Some req) = Some version) /\
  (~ not_newer rv vv -> check_version version (Some req) = None).
Proof. exact check_release. Qed.
Print Assumptions C49_releases.
Example C49_case : release [50;46;51;46;50] [2;3;2] /\ release [50;46;49;48;46;48] [2;10;0] /\ release [50;46;51] [2;3] /\
  check_version [50;46;51;46;50] (Some [50;46;49;48;46;48]) = None /\
  check_version [50;46;51;46;50] (Some [50;46;51]) = Some [50;46;51;46;50] /\
  ~ not_newer [2;10;0] [2;3;2] /\ not_newer [2;3] [2;3;2].
Proof. exact case_release. Qed.
Theorem C49_order : forall version, plain version ->
  check_version version None = Some version /\
  check_version version (Some version) = Some version /\
  (forall r, check_version version r = Some version \/ check_version version r = None) /\
  (forall r, plain r -> check_version version (Some r) = None -> check_version r (Some version) = Some r) /\
  (forall r, plain r -> r <> version -> check_version version (Some r) = Some version -> check_version r (Some version) = None) /\
  (forall newer r, plain newer -> plain r -> check_version newer (Some version) = Some newer ->
     check_version version (Some r) = Some version -> check_version newer (Some r) = Some newer).
Proof. exact check_order. Qed.
Print Assumptions C49_order.
Theorem C49_total_order :
  (forall a, strverscmp a a = 0) /\
  (forall a b, plain a -> plain b -> strverscmp a b = 0 -> a = b) /\
  (forall a b, plain a -> plain b -> Z.sgn (strverscmp b a) = - Z.sgn (strverscmp a b)) /\
  (forall a b c, plain a -> plain b -> plain c -> strverscmp a b <= 0 -> strverscmp b c <= 0 -> strverscmp a c <= 0).
Proof. exact (conj verscmp_refl (conj verscmp_zero (conj verscmp_anti verscmp_trans))). Qed.
Print Assumptions C49_total_order.
(** "000" < "00" < "01" < "010" < "09" < "0" < "1" < "9" < "10". *)
Example C49_order_case : plain [48;48;48] /\ strverscmp [48;48;48] [48;48] < 0 /\ strverscmp [48;48] [48;49] < 0 /\ strverscmp [48;49] [48;49;48] < 0 /\
  strverscmp [48;49;48] [48;57] < 0 /\ strverscmp [48;57] [48] < 0 /\ strverscmp [48] [49] < 0 /\ strverscmp [49] [57] < 0 /\ strverscmp [57] [49;48] < 0.
Proof. split; [ repeat (apply Forall_cons; [ lia |]); apply Forall_nil |]. vm_compute. auto 10. Qed.

(** C50. *)
Theorem C50_session : forall w a, nfc_ok (w_uenv w) -> locale_ok (w_locale w) -> version_given a = false -> help_given a = false ->
  exists ev status f given e, main w (Some a) = Ok (ev, status) /\ wanted a f /\
    ((inputs a <> [] /\ given = inputs a) \/ (inputs a = [] /\ lines (w_stdin w) given)) /\
    session w a f given (stdout ev) e /\
    complaints ev = match e with None => [] | Some rc => [(tag_of a, rc)] end /\
    (status = 0 <-> e = None /\ w_ferror w = false) /\
    (forall rc, e = Some rc -> In rc cli_codes).
Proof. exact main_session. Qed.
Print Assumptions C50_session.
Theorem C50_session_unique : forall w a f l o e o' e', session w a f l o e -> session w a f l o' e' -> o = o' /\ e = e'.
Proof. intros w a f l o e o' e' S S'. refine (session_unique w a f l o e o' e' l S _ S'). clear. induction l; constructor; [ tauto | assumption ]. Qed.
Print Assumptions C50_session_unique.
Theorem C50_flags : forall a f g, wanted a f -> ~ bad_flags f /\ (wanted a g -> g = f).
Proof. intros a f g W. exact (conj (wanted_good a f W) (fun W' => wanted_unique a g f W' W)). Qed.
Print Assumptions C50_flags.
Theorem C50_stdin_like_arguments : forall w a ls ev st ev' st', nfc_ok (w_uenv w) -> locale_ok (w_locale w) ->
  version_given a = false -> help_given a = false -> ls <> [] -> Forall (fun l => ~ In 0 l /\ ~ In 10 l) ls ->
  w_stdin w = concat (map (fun l => l ++ [10]) ls) ->
  main w (Some (with_inputs a ls)) = Ok (ev, st) -> main w (Some (with_inputs a [])) = Ok (ev', st') ->
  stdout ev' = stdout ev /\ complaints ev' = complaints ev /\ st' = st.
Proof. exact stdin_like_arguments. Qed.
Print Assumptions C50_stdin_like_arguments.
Theorem C50_complaints : forall w a ev st t rc, nfc_ok (w_uenv w) -> locale_ok (w_locale w) ->
  main w a = Ok (ev, st) -> In (t, rc) (complaints ev) ->
  st <> 0 /\ rc <> IDN2_INVALID_FLAGS /\ exists m, In (rc, m) topics /\ mentions (strerror rc) m.
Proof. exact complaint_explained. Qed.
Print Assumptions C50_complaints.
Theorem C50_debug_refuted : exists w a ev s r, nfc_ok (w_uenv w) /\ locale_ok (w_locale w) /\ main w (Some a) = Ok (ev, 0) /\
  In (Stdout (r ++ [10])) ev /\ In (Hexdump Doutput s) ev /\ s <> r.
Proof. exact debug_wrong. Qed.
Print Assumptions C50_debug_refuted.
Example C50_case : nfc_ok ucd /\ locale_ok latin1_guarded /\ Forall (fun l => ~ In 0 l /\ ~ In 10 l) dialogue /\
  main (here []) (Some (with_inputs plainly dialogue)) =
    Ok ([Stdout (xn_buecher ++ [10]); Stdout [87; 10]; Complaint TtoAscii IDN2_2HYPHEN], 1) /\
  main (here (concat (map (fun l => l ++ [10]) dialogue))) (Some plainly) =
    Ok ([Stdout (xn_buecher ++ [10]); Stdout [87; 10]; Complaint TtoAscii IDN2_2HYPHEN], 1) /\
  wanted plainly 9.
Proof. exact case_cli. Qed.
