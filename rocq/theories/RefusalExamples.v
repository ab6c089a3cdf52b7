(** Packaging for PropRefusal.v. *)
From Verif Require Import Base PunyBase Uenv DataTypes SpecUtf8 SpecPuny SpecTables SpecBidi SpecContext SpecLabel SpecNfc
  SpecLookup SpecToAscii SpecRefusal Puny Lookup MapProofs LookupTr46 LookupTop ToAsciiProofs Compose RefusalLabel RefusalProofs RefusalTop
  Ucd UcdProofs BaseTop LookupExamples AcceptExamples.

Lemma refusal_explained : forall U src f rc, nfc_ok U -> c_string src -> zlen src < two64 -> lookup_u8 U src f = Fail rc -> refuses U f src rc.
Proof. intros U src f rc K C L H. exact (proj1 (lookup_refusal U K src f C L) rc H). Qed.
Lemma refusal_refused : forall U src f rc, nfc_ok U -> c_string src -> zlen src < two64 -> refuses U f src rc ->
  exists rc', lookup_u8 U src f = Fail rc' /\ (rc' = rc \/ ((opt_no_tr46 f = true /\ 1000000000 < zlen src) /\ In rc room_codes /\ In rc' room_codes)).
Proof.
  intros U src f rc K C L H. destruct (proj2 (lookup_refusal U K src f C L) rc H) as (rc' & E & [X|X]); exists rc'; auto.
Qed.
Lemma refusal_unique : forall U src f a b, nfc_ok U -> c_string src -> zlen src < two64 -> refuses U f src a -> refuses U f src b ->
  a = b \/ ((opt_no_tr46 f = true /\ 1000000000 < zlen src) /\ In a room_codes /\ In b room_codes).
Proof.
  intros U src f a b K C L A B. apply refusal_refused in A; auto. apply refusal_refused in B; auto.
  destruct A as (x & EA & A), B as (y & EB & B). assert (x = y) as <- by congruence.
  destruct A as [->|(A0 & A1 & A2)], B as [<-|(B0 & B1 & B2)]; auto.
Qed.
Lemma refusal_exact : forall U src f rc, nfc_ok U -> c_string src -> zlen src < two64 -> opt_no_tr46 f = false \/ zlen src <= 1000000000 ->
  (lookup_u8 U src f = Fail rc <-> refuses U f src rc).
Proof.
  intros U src f rc K C L S. split; [now apply refusal_explained|]. intros H. apply refusal_refused in H; auto. destruct H as (x & E & [->|((X & Y) & _)]); [exact E|].
  destruct S as [S|S]; [congruence|lia].
Qed.
Lemma accept_or_refuse : forall U src f, nfc_ok U -> c_string src -> zlen src < two64 ->
  ((exists r, accepts U f src r) \/ (exists rc, refuses U f src rc)) /\ ~ ((exists r, accepts U f src r) /\ (exists rc, refuses U f src rc)).
Proof.
  intros U src f K C L. split.
  - pose proof (lookup_safe U src f K C L) as S. destruct (lookup_u8 U src f) as [r|rc| |] eqn:E; try contradiction.
    + left. exists r. now apply lookup_exact.
    + right. exists rc. now apply refusal_explained.
  - intros ((r & A) & (rc & B)). apply lookup_exact in A; auto. apply refusal_refused in B; auto. destruct B as (x & E & _). congruence.
Qed.

(** Without TR46 the first label decides. *)
Lemma labels_first : forall U f ls ms acc rc, lookup_labels U f ls acc = Fail rc -> lookup_labels U f (ls ++ ms) acc = Fail rc.
Proof.
  intros U f ls ms. induction ls as [|l ls IH]; intros acc rc H; [discriminate|]. cbn [app lookup_labels] in *. cbv zeta in *.
  apply bind_fail in H. apply bind_fail. destruct H as [H|(d & Hd & H)]; [left; exact H|]. right. exists d. split; [exact Hd|].
  change DOMAIN_MAX with 255 in *. pose proof (zlen_app _ acc d) as ZA.
  destruct ls as [|x ls].
  - cbn [app] in *. rewrite andb_true_r in H.
    match type of H with (if ?b then _ else _) = _ => destruct b eqn:E1 end.
    + injection H as <-. apply Z.ltb_lt in E1.
      replace ((255 - (if (zlen d =? 0) && match ms with [] => true | _ => false end then 1 else 2)) <? zlen acc + zlen d) with true; [reflexivity|].
      symmetry. apply Z.ltb_lt. destruct (zlen d =? 0), ms; cbn [andb]; lia.
    + repeat (match type of H with (if ?b then _ else _) = _ => destruct b end; try discriminate).
  - cbn [app] in *. repeat (match type of H with (if ?b then _ else _) = _ => destruct b end; try assumption; try discriminate). now apply IH.
Qed.
Lemma split_app : forall a b, split_dots (a ++ 46 :: b) = split_dots a ++ split_dots b.
Proof. intros a b. apply dotted_iff. apply dotted_glue; now apply dotted_iff. Qed.
Lemma raw_first : forall U a b f rc, opt_no_tr46 f = true -> lookup_u8 U a f = Fail rc -> lookup_u8 U (a ++ 46 :: b) f = Fail rc.
Proof.
  intros U a b f rc N H. unfold lookup_u8 in *. destruct (set_flags_spec f) as [(B & E)|(B & E)]; rewrite E in *; cbn [bind] in *; [exact H|].
  rewrite has_no_tr46, eff_no_tr46, N in *. cbn [negb bind] in *. rewrite split_app. now apply labels_first.
Qed.

Definition minus_a : list Z := [45; 97].
Definition ab_c : list Z := [97; 98; 45; 45; 99].
Lemma case_refusal : nfc_ok ucd /\ c_string (minus_a ++ 46 :: ab_c) /\ zlen (minus_a ++ 46 :: ab_c) < two64 /\
  lookup_u8 ucd (minus_a ++ 46 :: ab_c) 0 = Fail IDN2_2HYPHEN /\
  lookup_u8 ucd (ab_c ++ 46 :: minus_a) 0 = Fail IDN2_HYPHEN_STARTEND /\
  lookup_u8 ucd (minus_a ++ 46 :: [120; 110; 45; 45; 33]) 0 = Fail IDN2_PUNYCODE_BAD_INPUT /\
  lookup_u8 ucd [0xD7; 0x90; 97] 0 = Fail IDN2_BIDI /\
  lookup_u8 ucd [0xC3; 0xBC; 0x24] 0 = Fail IDN2_ALABEL_ROUNDTRIP_FAILED /\
  lookup_u8 ucd [97; 0xE2; 0x80; 0x8D] 64 = Fail IDN2_CONTEXTJ.
Proof.
  split; [exact ucd_nfc_ok|]. split; [repeat (apply Forall_cons; [lia|]); apply Forall_nil|]. split; [reflexivity|].
  repeat split; vm_compute; reflexivity.
Qed.
Lemma first_label_witness : exists a b rc rc', dotted [a; b] (a ++ 46 :: b) /\ lookup_u8 ucd a 0 = Fail rc /\ lookup_u8 ucd (a ++ 46 :: b) 0 = Fail rc' /\ rc <> rc'.
Proof.
  exists minus_a, ab_c, IDN2_HYPHEN_STARTEND, IDN2_2HYPHEN. split.
  - split; [discriminate|]. split; [|reflexivity]. repeat (apply Forall_cons; [cbn [In minus_a ab_c]; lia|]). apply Forall_nil.
  - split; [vm_compute; reflexivity|]. split; [vm_compute; reflexivity|]. discriminate.
Qed.
Lemma case_raw_first : opt_no_tr46 64 = true /\ lookup_u8 ucd [97; 0xE2; 0x80; 0x8D] 64 = Fail IDN2_CONTEXTJ /\
  lookup_u8 ucd ([97; 0xE2; 0x80; 0x8D] ++ 46 :: [0xC3]) 64 = Fail IDN2_CONTEXTJ /\ lookup_u8 ucd [0xC3] 64 = Fail IDN2_ENCODING_ERROR.
Proof. repeat split; vm_compute; reflexivity. Qed.
