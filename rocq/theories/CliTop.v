(** The command line tool: lines and arguments, messages, cases. *)
From Coq Require Import String.
From Verif Require Import Base Uenv SpecNfc SpecUtf8 SpecLookup SpecUnicode SpecRegister Lookup Api Register Error SpecError ErrorProofs
  ApiProofs RegisterTop Cli SpecCli CliProofs Ucd UcdProofs LookupExamples ApiExamples.
Local Open Scope list_scope.

Lemma session_inputs : forall w a l f xs o e, session w (with_inputs a l) f xs o e -> session w a f xs o e.
Proof.
  intros w a l f xs o e S. induction S as [| x s r xs o e C A S IH | x s rc xs C R].
  - constructor.
  - apply se_line with (s := s); [ exact C | | exact IH ]. destruct A; constructor; assumption.
  - apply se_stop with (s := s); [ exact C | exact R ].
Qed.

Lemma text_lines : forall ls, Forall (fun l => ~ In 10 l) ls -> lines (concat (map (fun l => l ++ [10]) ls)) (map (fun l => l ++ [10]) ls).
Proof.
  induction ls as [| l ls IH]; intros F; [ constructor |]. inversion F; subst. cbn [map concat].
  rewrite <- app_assoc. cbn [app]. constructor; [ assumption | now apply IH ].
Qed.

Lemma content_line : forall l s, ~ In 0 l -> ~ In 10 l -> (content (l ++ [10]) s <-> content l s).
Proof.
  intros l s N0 N10.
  assert (A : content (l ++ [10]) l).
  { exists (l ++ [10]). split; [ now left |]. split; [| now left ]. rewrite in_app_iff. cbn. intuition discriminate. }
  assert (B : content l l).
  { exists l. split; [ now left |]. split; [ exact N0 |]. right. split; [ reflexivity |]. intros u ->. apply N10. apply in_or_app. right. now left. }
  split; intros C.
  - now rewrite (content_unique _ _ C), <- (content_unique _ _ A).
  - now rewrite (content_unique _ _ C), <- (content_unique _ _ B).
Qed.

(** Lines on standard input are treated like arguments. *)
Lemma stdin_like_arguments : forall w a ls ev st ev' st', nfc_ok (w_uenv w) -> locale_ok (w_locale w) ->
  version_given a = false -> help_given a = false -> ls <> [] -> Forall (fun l => ~ In 0 l /\ ~ In 10 l) ls ->
  w_stdin w = concat (map (fun l => l ++ [10]) ls) ->
  main w (Some (with_inputs a ls)) = Ok (ev, st) -> main w (Some (with_inputs a [])) = Ok (ev', st') ->
  stdout ev' = stdout ev /\ complaints ev' = complaints ev /\ st' = st.
Proof.
  intros w a ls ev st ev' st' K LO V H NE F T M M'.
  destruct (main_session w (with_inputs a ls) K LO V H) as (ev1 & st1 & f & g & e & M1 & W & G & S & C & ST & _).
  destruct (main_session w (with_inputs a []) K LO V H) as (ev2 & st2 & f2 & g2 & e2 & M2 & W2 & G2 & S2 & C2 & ST2 & _).
  assert (ev1 = ev /\ st1 = st) as [-> ->] by (split; congruence). assert (ev2 = ev' /\ st2 = st') as [-> ->] by (split; congruence).
  assert (f2 = f) as -> by exact (wanted_unique a f2 f W2 W).
  destruct G as [[_ ->] | [X _]]; [| now contradict NE ]. destruct G2 as [[X _] | [_ L]]; [ now contradict X |].
  apply session_inputs in S. apply session_inputs in S2. cbn [inputs with_inputs] in *.
  assert (g2 = map (fun l => l ++ [10]) ls) as ->.
  { rewrite T in L. apply lines_getlines in L. rewrite L. symmetry. apply lines_getlines. apply text_lines. revert F. apply Forall_impl. tauto. }
  assert (P : Forall2 (fun x y => forall s, content x s <-> content y s) (map (fun l => l ++ [10]) ls) ls).
  { clear - F. induction F as [| l ls [N0 N10] F IH]; cbn [map]; constructor; [ intros s; now apply content_line | exact IH ]. }
  destruct (session_unique _ _ _ _ _ _ _ _ _ S2 P S) as [-> ->].
  split; [ reflexivity |]. split; [ rewrite C2, C; reflexivity |].
  assert (B : forall w a ev st, main w (Some a) = Ok (ev, st) -> st = 0 \/ st = 1).
  { clear. intros w a ev st. unfold main. destruct (version_given a); [ intros E; left; unfold EXIT_SUCCESS in E; congruence |].
    destruct (help_given a); [ intros E; left; unfold EXIT_SUCCESS in E; congruence |].
    destruct (process_all w a (inputs a) _) as [[e1 go1] | | |]; cbn [bind]; try discriminate.
    destruct go1; cbn [negb]; [| intros E; right; unfold EXIT_FAILURE in E; congruence ].
    match goal with |- context [let* (_, _) := ?m in _] => destruct m as [[e2 go2] | | |]; cbn [bind]; try discriminate end.
    destruct go2; cbn [negb]; [| intros E; right; unfold EXIT_FAILURE in E; congruence ].
    destruct (w_ferror w); intros E; [ right; unfold EXIT_FAILURE in E; congruence | left; unfold EXIT_SUCCESS in E; congruence ]. }
  apply B in M. apply B in M'. destruct M as [-> | ->], M' as [-> | ->]; try reflexivity; exfalso.
  - assert (1 = 0) by (apply ST2, ST; reflexivity). discriminate.
  - assert (1 = 0) by (apply ST, ST2; reflexivity). discriminate.
Qed.

(** Every complaint says what is wrong. *)
Lemma complaint_explained : forall w a ev st t rc, nfc_ok (w_uenv w) -> locale_ok (w_locale w) ->
  main w a = Ok (ev, st) -> In (t, rc) (complaints ev) ->
  st <> 0 /\ rc <> IDN2_INVALID_FLAGS /\ exists m, In (rc, m) topics /\ mentions (strerror rc) m.
Proof.
  intros w [a |] ev st t rc K LO M I; [| cbn in M; injection M as <- <-; contradiction ].
  destruct (version_given a) eqn:V; [ unfold main in M; rewrite V in M; injection M as <- <-; contradiction |].
  destruct (help_given a) eqn:H; [ unfold main in M; rewrite V, H in M; injection M as <- <-; contradiction |].
  destruct (main_session w a K LO V H) as (ev1 & st1 & f & g & e & M1 & W & G & S & C & ST & IE).
  assert (ev1 = ev /\ st1 = st) as [-> ->] by (split; congruence). rewrite C in I. destruct e as [rc1 |]; [| contradiction ].
  destruct I as [I | []]. injection I as _ ->.
  split; [ intros X; apply ST in X; destruct X; discriminate |].
  specialize (IE rc eq_refl). split; [ intros ->; revert IE; vm_compute; intuition discriminate |].
  apply (told cli_codes); [ vm_compute; reflexivity | exact IE ].
Qed.

(** ** Cases *)

(** ISO 8859-1, for names that fit into memory. *)
Definition latin1_guarded : locale :=
  Locale (fun x => match latin1_from x with
                   | Some s => if forallb (fun b => (0 <? b) && (b <=? 255)) s && (zlen s <? two64) then Some s else None
                   | None => None
                   end) latin1_to.
Lemma latin1_ok : locale_ok latin1_guarded.
Proof.
  intros x s. cbn [from_locale latin1_guarded]. destruct (latin1_from x) as [b |]; [| discriminate ].
  destruct (forallb _ b && (zlen b <? two64)) eqn:E; [| discriminate ]. intros X. injection X as <-.
  apply andb_prop in E. destruct E as [E1 E2]. split; [| now apply Z.ltb_lt ].
  rewrite forallb_forall in E1. apply Forall_forall. intros y I. apply E1 in I. apply andb_prop in I. destruct I as [I1 I2].
  apply Z.ltb_lt in I1. apply Z.leb_le in I2. lia.
Qed.

Definition here (stdin : list Z) : world := World ucd latin1_guarded None stdin false false [87] [67].
Definition plainly : options := Options false false false false false false false false false false false [].
Definition debugging : options := Options false false false true false false false false false false false [[252]].

(** The lines "B\252cher.ex", "show w", "a--b\252" (refused), "c". *)
Definition dialogue : list (list Z) := [buecher4; show_w; [97;98;45;45;252]; [99]].
Lemma case_cli : nfc_ok ucd /\ locale_ok latin1_guarded /\ Forall (fun l => ~ In 0 l /\ ~ In 10 l) dialogue /\
  main (here []) (Some (with_inputs plainly dialogue)) =
    Ok ([Stdout (xn_buecher ++ [10]); Stdout [87; 10]; Complaint TtoAscii IDN2_2HYPHEN], 1) /\
  main (here (concat (map (fun l => l ++ [10]) dialogue))) (Some plainly) =
    Ok ([Stdout (xn_buecher ++ [10]); Stdout [87; 10]; Complaint TtoAscii IDN2_2HYPHEN], 1) /\
  wanted plainly 9.
Proof.
  split; [ exact ucd_nfc_ok |]. split; [ exact latin1_ok |]. split.
  { unfold dialogue, show_w, buecher4. repeat (apply Forall_cons; [ cbn; intuition discriminate |]). apply Forall_nil. }
  split; [ vm_compute; reflexivity |]. split; [ vm_compute; reflexivity |]. exact (flags_wanted plainly).
Qed.

(** --debug shows the input again instead of the output. *)
Lemma debug_wrong : exists w a ev s r, nfc_ok (w_uenv w) /\ locale_ok (w_locale w) /\ main w (Some a) = Ok (ev, 0) /\
  In (Stdout (r ++ [10])) ev /\ In (Hexdump Doutput s) ev /\ s <> r.
Proof.
  exists (here []), debugging, [Charset; Hexdump Dinput [252]; Hexdump Doutput [252]; Stdout [120;110;45;45;116;100;97;10]], [252], [120;110;45;45;116;100;97].
  split; [ exact ucd_nfc_ok |]. split; [ exact latin1_ok |]. split; [ vm_compute; reflexivity |].
  split; [ cbn; tauto |]. split; [ cbn; tauto | discriminate ].
Qed.
