(** Concrete runs of the fuzz targets and examples, and refutations. *)
From Coq Require Import String.
From Verif Require Import Base Uenv DataTypes DataTr46 SpecTables Utf8 Puny Idna Lookup Api Register SpecUtf8 SpecNfc SpecLookup SpecCli Ucd UcdProofs LookupProofs LookupExamples ApiProofs ApiExamples RegisterTop Heap SpecHeap HeapProofs HeapTop HeapCases Client SpecClient ClientEx.
Local Open Scope list_scope.
Transparent status_of mapping_of.

Definition zeros (n : nat) : list Z := List.repeat 0 n.
Lemma zeros_ok : arrays zeros.
Proof. intros n. apply repeat_length. Qed.
(** A locale with UTF-8 that takes strings of moderate length. *)
Definition through (s : list Z) : option (list Z) := if forallb (fun b => (0 <? b) && (b <=? 255)) s && (zlen s <? 1000) then Some s else None.
Definition unilocale : locale := Locale through through.
Lemma through_ok : forall x s, through x = Some s -> c_string s /\ zlen s < two64.
Proof.
  intros x s H. unfold through in H. destruct (forallb _ x) eqn:F; [|discriminate H]. destruct (zlen x <? 1000) eqn:Z0; [|discriminate H].
  cbn [andb] in H. assert (x = s) by congruence. subst x. split.
  - unfold c_string. rewrite forallb_forall in F. apply Forall_forall. intros b I. specialize (F b I). lia.
  - apply Z.ltb_lt in Z0. unfold two64. lia.
Qed.
Lemma unilocale_ok : locale_ok unilocale /\ (forall x s, to_locale unilocale x = Some s -> c_string s).
Proof. split; [exact through_ok|]. intros x s H. now apply through_ok in H. Qed.

Lemma bytes_by : forall l, forallb (fun b => (0 <=? b) && (b <=? 255)) l = true -> bytes l.
Proof. intros l F. rewrite forallb_forall in F. apply Forall_forall. intros b I. specialize (F b I). lia. Qed.
Lemma chars_by : forall l, forallb (fun b => (0 <? b) && (b <=? 255)) l = true -> c_string l.
Proof. intros l F. rewrite forallb_forall in F. apply Forall_forall. intros b I. specialize (F b I). lia. Qed.

Definition fremd : list Z := [98;195;188;99;104;101;114].  (* "bücher" *)
Definition ends (m : out (Z * heap)) : option (Z * bool * nat) :=
  match m with Ok (st, h) => Some (st, if list_eq_dec Nat.eq_dec (map fst (live h)) [3%nat] then true else false, calls h) | _ => None end.
Lemma fuzz_cases : nfc_ok ucd /\ locale_ok unilocale /\ arrays zeros /\ bytes fremd /\ bytes [98;0;0;0;252;0;0;0] /\ heap_ok start /\ plentiful generous /\
  ends (fuzz_register generous ucd unilocale None (Some 9%nat) fremd start) = Some (0, true, 13%nat) /\
  ends (fuzz_to_ascii generous ucd unilocale None (Some 9%nat) zeros [98;0;0;0;252;0;0;0] start) = Some (0, true, 415%nat) /\
  ends (fuzz_to_ascii generous ucd unilocale None (Some 9%nat) zeros [] start) = Some (0, true, 370%nat) /\
  ends (fuzz_to_unicode generous unilocale [50] None (Some 9%nat) zeros [57;0;0;0;252;0;0;0] start) = Some (0, true, 24%nat) /\
  ends (fuzz_to_unicode generous unilocale [50] None (Some 9%nat) zeros [] start) = Some (0, true, 37%nat) /\
  fuzz_register (fails_at 0) ucd unilocale None (Some 9%nat) fremd start = Fail SIGABRT.
Proof.
  split; [exact (proj1 case_buecher)|]. split; [exact (proj1 unilocale_ok)|]. split; [exact zeros_ok|].
  split; [apply bytes_by; reflexivity|]. split; [apply bytes_by; reflexivity|]. split; [exact start_ok|]. split; [now intros n|].
  vm_compute. repeat split.
Qed.

(** malloc (4) fails in line 64 of the ToUnicode target. *)
Lemma in32_null : exists E data, bytes data /\ keeps_errno E /\ fuzz_to_unicode E unilocale [50] None (Some 9%nat) zeros data start = Undef.
Proof. exists (fails_at 10), []. split; [constructor|]. split; [now intros n|]. vm_compute. reflexivity. Qed.

(** The A-label given to registration. *)
Lemma alabel_cut : forall data, c_string data -> upto0 (alabel_buffer data) = firstn (length data) (ace_prefix ++ data).
Proof.
  intros data C. unfold alabel_buffer. cbn [app]. apply upto0_app. intros I.
  assert (J : In 0 (ace_prefix ++ data)).
  { rewrite <- (firstn_skipn (length data) (ace_prefix ++ data)). apply in_or_app. now left. }
  apply in_app_iff in J. destruct J as [J|J]; [|now apply (c_no0 data C)].
  repeat (destruct J as [J|J]; [discriminate J|]). exact J.
Qed.
Lemma alabel_blind : forall p d d', c_string (p ++ d) -> c_string (p ++ d') -> length d = 4%nat -> length d' = 4%nat ->
  upto0 (alabel_buffer (p ++ d)) = upto0 (alabel_buffer (p ++ d')).
Proof.
  intros p d d' C C' L L'. rewrite !alabel_cut by assumption. rewrite !app_length, L, L'.
  assert (G : forall x, firstn (length p + 4) (ace_prefix ++ p ++ x) = ace_prefix ++ p).
  { intros x. rewrite app_assoc, firstn_app, firstn_all2; rewrite app_length; cbn [length ace_prefix]; [|lia].
    replace (length p + 4 - (4 + length p))%nat with 0%nat by lia. apply app_nil_r. }
  now rewrite !G.
Qed.
Lemma alabel_not_tested : exists data, c_string data /\ upto0 (alabel_buffer data) <> ace_prefix ++ data.
Proof. exists fremd. split; [apply chars_by; reflexivity|]. vm_compute. discriminate. Qed.

(** ** Examples *)
Definition said (m : out (Z * list write * heap)) : option (Z * list write * bool) :=
  match m with Ok (st, w, h) => Some (st, w, if list_eq_dec Nat.eq_dec (map fst (live h)) [3%nat] then true else false) | _ => None end.
Definition xn_fremd : list Z := [120;110;45;45;98;99;104;101;114;45;107;118;97].
Lemma example_cases : nfc_ok ucd /\ locale_ok unilocale /\ (forall x s, to_locale unilocale x = Some s -> c_string s) /\ heap_ok start /\ keeps_errno generous /\
  first_line 100 fremd (fremd ++ [10;97]) /\ first_line 100 xn_fremd (xn_fremd ++ [10]) /\ unfinished_line 100 (fremd ++ [33]) (fremd ++ [33]) /\ filled_line 9 (fremd ++ [33]) (fremd ++ [33;97;10]) /\ nul_line 100 (fremd ++ [33]) (fremd ++ [33;0;97;10]) /\
  said (main_lookup generous ucd unilocale None (Some 9%nat) 100 (fremd ++ [10;97]) start) =
    Some (0, [Printf Stdout "Enter (possibly non-ASCII) domain name to lookup: " [];
              Printf Stdout "IDNA2008 domain name to lookup in DNS: %s\n" [Str xn_fremd] ], true) /\
  said (main_decode generous unilocale None (Some 9%nat) 100 (xn_fremd ++ [10]) start) =
    Some (0, [Printf Stdout "Enter (possibly non-ASCII) domain name to decode: " [];
              Printf Stdout "Decoded domain name: %s\n" [Str fremd] ], true) /\
  said (main_register generous ucd unilocale None (Some 9%nat) 100 (fremd ++ [10;97]) start) =
    Some (0, [Printf Stdout "Enter (possibly non-ASCII) label to register: " [];
              Printf Stdout "IDNA2008 label to register in DNS: %s\n" [Str xn_fremd] ], true) /\
  said (main_toascii generous ucd None (Some 9%nat) 100 ([98;195;188;10]) start) =
    Some (0, [Printf Stdout "Read string (length %ld): " [Long 3]; Printf Stdout "%02x " [Uint 98]; Printf Stdout "%02x " [Uint 195];
              Printf Stdout "%02x " [Uint 188]; Printf Stdout "\n" [];
              Printf Stdout "ACE label (length %ld): '%s'\n" [Long 9; Str [120;110;45;45;98;45;101;104;97] ] ], true) /\
  said (main_tounicode generous None (Some 9%nat) 100 ([255;10]) start) =
    Some (1, [Printf Stdout "Read string (length %ld): " [Long 1]; Printf Stdout "%02x " [Uint 255]; Printf Stdout "\n" [];
              Printf Stdout "ToUnicode() failed (%d): %s\n" [Int (-200); Msg "string encoding error"] ], true).
Proof.
  split; [exact (proj1 case_buecher)|]. split; [exact (proj1 unilocale_ok)|]. split; [exact (proj2 unilocale_ok)|]. split; [exact start_ok|]. split; [now intros n|].
  split; [|split; [|split; [|split; [|split] ] ] ].
  1,2: (split; [apply chars_by; reflexivity|]; split; [cbn; intuition discriminate|]; split; [cbn; lia|eexists; reflexivity]).
  1: (split; [apply chars_by; reflexivity|]; split; [cbn; intuition discriminate|]; split; [cbn; lia|reflexivity]).
  1: (split; [apply chars_by; reflexivity|]; split; [cbn; intuition discriminate|]; split; [reflexivity|exists [97;10]; reflexivity]).
  1: (split; [apply chars_by; reflexivity|]; split; [cbn; intuition discriminate|]; split; [cbn; lia|exists [97;10]; reflexivity]).
  vm_compute. repeat split.
Qed.
