(** Property C83: canonical equivalence. *)
From Verif Require Import Base Uenv DataTypes SpecUtf8 SpecTables SpecLabel SpecLookup DataUcd Ucd Utf8 Idna Lookup SpecCanon CanonProofs CanonTop CanonNfc CanonCases.

(** The normalisation lookup uses is the one of canonical equivalence. *)
Theorem C83_nfc : forall l m, nfc l = nfc m <-> canon l m.
Proof. exact nfc_decides. Qed.
Print Assumptions C83_nfc.
Theorem C83_nfc_itself : forall l, canon (nfc l) l.
Proof. exact canon_nfc. Qed.
Print Assumptions C83_nfc_itself.
(** So is NFD. *)
Theorem C83_nfd : forall l m, canon l m <-> nfd l = nfd m.
Proof. exact canon_iff. Qed.
Print Assumptions C83_nfd.

(** The mapping of UTS 46 respects it, in names where U+0345 stands in its
    place. *)
Theorem C83_mapping : forall tr l m, canon l m -> iota_in_order l -> iota_in_order m -> canon (uts46_map tr false l) (uts46_map tr false m).
Proof. exact mapping_canon. Qed.
Print Assumptions C83_mapping.
(** And so does lookup. *)
Theorem C83_lookup : forall s1 s2 l1 l2 f, c_string s1 -> c_string s2 -> utf8 l1 s1 -> utf8 l2 s2 -> opt_no_tr46 f = false ->
  opt_std3 f = false \/ (std3_free l1 /\ std3_free l2) -> canon l1 l2 -> iota_in_order l1 -> iota_in_order l2 ->
  allowed l1 -> allowed l2 -> mapped_length f l1 < 255 -> mapped_length f l2 < 255 ->
  lookup_u8 ucd s1 f = lookup_u8 ucd s2 f.
Proof. exact lookup_canon. Qed.
Print Assumptions C83_lookup.
(** Equivalent names that are both accepted have one result. *)
Theorem C83_accepted : forall s1 s2 l1 l2 f r1 r2, c_string s1 -> c_string s2 -> zlen s1 < two64 -> zlen s2 < two64 -> utf8 l1 s1 -> utf8 l2 s2 -> opt_no_tr46 f = false ->
  opt_std3 f = false -> canon l1 l2 -> iota_in_order l1 -> iota_in_order l2 -> lookup_u8 ucd s1 f = Ok r1 -> lookup_u8 ucd s2 f = Ok r2 -> r1 = r2.
Proof. exact lookup_accepted. Qed.
Print Assumptions C83_accepted.
(** Normalising before the call (either way) makes no difference. *)
Theorem C83_normalised : forall s s' l l' f, c_string s -> c_string s' -> utf8 l s -> utf8 l' s' -> l' = nfc l \/ l' = nfd l -> opt_no_tr46 f = false -> opt_std3 f = false ->
  iota_free l -> allowed l -> mapped_length f l < 255 -> mapped_length f l' < 255 -> lookup_u8 ucd s f = lookup_u8 ucd s' f.
Proof. exact lookup_normal. Qed.
Print Assumptions C83_normalised.
(** A name without disallowed characters stays one. *)
Theorem C83_allowed : forall l, allowed l -> allowed (nfc l) /\ allowed (nfd l).
Proof. intros l H. split; [exact (nfc_allowed l H)|exact (nfd_allowed l H)]. Qed.
Print Assumptions C83_allowed.

(** The conditions are needed.  U+0345 is mapped to a letter, before the marks
    are put in order: *)
Theorem C83_iota_refuted : exists s1 s2 l1 l2 r1 r2, c_string s1 /\ c_string s2 /\ utf8 l1 s1 /\ utf8 l2 s2 /\ canon l1 l2 /\
  lookup_u8 ucd s1 0 = Ok r1 /\ lookup_u8 ucd s2 0 = Ok r2 /\ r1 <> r2.
Proof. exact told_apart_iota. Qed.
Print Assumptions C83_iota_refuted.
(** so that a caller who normalises to NFC first may get another name: *)
Theorem C83_nfc_first_refuted : exists s1 s2 l r1 r2, c_string s1 /\ c_string s2 /\ utf8 l s1 /\ utf8 (nfc l) s2 /\ iota_in_order l /\
  lookup_u8 ucd s1 0 = Ok r1 /\ lookup_u8 ucd s2 0 = Ok r2 /\ r1 <> r2.
Proof. exact told_apart_nfc. Qed.
Print Assumptions C83_nfc_first_refuted.
(** IDN2_USE_STD3_ASCII_RULES (32) drops characters: *)
Theorem C83_std3_refuted : exists s1 s2 l r1 r2, c_string s1 /\ c_string s2 /\ utf8 l s1 /\ utf8 (nfd l) s2 /\ iota_free l /\
  lookup_u8 ucd s1 32 = Ok r1 /\ lookup_u8 ucd s2 32 = Ok r2 /\ r1 <> r2.
Proof. exact told_apart_std3. Qed.
Print Assumptions C83_std3_refuted.
(** a character may be disallowed though its decomposition is not: *)
Theorem C83_disallowed_refuted : exists s1 s2 l1 l2 r, c_string s1 /\ c_string s2 /\ utf8 l1 s1 /\ utf8 l2 s2 /\ canon l1 l2 /\
  lookup_u8 ucd s1 0 = Fail IDN2_DISALLOWED /\ lookup_u8 ucd s2 0 = Ok r.
Proof. exact told_apart_disallowed. Qed.
Print Assumptions C83_disallowed_refuted.
(** and the length is tested before normalisation. *)
Theorem C83_length_refuted : exists s1 s2 l r, c_string s1 /\ c_string s2 /\ utf8 l s1 /\ utf8 (nfd l) s2 /\ iota_free l /\
  lookup_u8 ucd s1 0 = Ok r /\ lookup_u8 ucd s2 0 = Fail IDN2_TOO_BIG_DOMAIN.
Proof. exact told_apart_length. Qed.
Print Assumptions C83_length_refuted.

(** Non-vacuity: U+1E69 and the letter with its two marks in both orders, and
    U+0345 in its place. *)
Example C83_case : canon [0x1E69] [0x73; 0x307; 0x323] /\ canon [0x1E69] [0x73; 0x323; 0x307] /\ nfc [0x73; 0x307; 0x323] = [0x1E69] /\ nfd [0x1E69] = [0x73; 0x323; 0x307] /\
  ~ canon [0x73; 0x300; 0x301] [0x73; 0x301; 0x300] /\ iota_in_order [0x3B1; 0x316; 0x345] /\ ~ iota_in_order [0x1FB3; 0x316] /\
  lookup_u8 ucd [0x73; 0xCC; 0x87; 0xCC; 0xA3] 0 = Ok [120; 110; 45; 45; 49; 105; 103] /\ lookup_u8 ucd [0xE1; 0xB9; 0xA9] 0 = Ok [120; 110; 45; 45; 49; 105; 103].
Proof.
  split; [apply canon_iff; vm_compute; reflexivity|]. split; [apply canon_iff; vm_compute; reflexivity|]. split; [vm_compute; reflexivity|]. split; [vm_compute; reflexivity|].
  split; [rewrite canon_iff; intros H; vm_compute in H; discriminate H|].
  split. { assert (flat_map decomp1 [0x3B1; 0x316; 0x345] = [0x3B1; 0x316; 0x345]) as E by (vm_compute; reflexivity). unfold iota_in_order. rewrite E. cbn [iota_last]. unfold iota_below. repeat split; intros X; discriminate X. }
  split. { assert (flat_map decomp1 [0x1FB3; 0x316] = [0x3B1; 0x345; 0x316]) as E by (vm_compute; reflexivity). unfold iota_in_order. rewrite E. cbn [iota_last].
    assert (ccc 0x316 = 220) as -> by (vm_compute; reflexivity). rewrite ccc_iota. intros (_ & (H & _)). apply (H eq_refl). split; reflexivity. }
  split; vm_compute; reflexivity.
Qed.
(** The theorem applied to them. *)
Example C83_case_used : lookup_u8 ucd [0x73; 0xCC; 0x87; 0xCC; 0xA3] 8 = lookup_u8 ucd [0xE1; 0xB9; 0xA9] 8.
Proof.
  apply (C83_lookup _ _ [0x73; 0x307; 0x323] [0x1E69]).
  1-2: apply c_string_checked; reflexivity.
  1-2: apply Utf8Proofs.u8_to_u32_iff; [apply MapProofs.c_string_bytes, c_string_checked; reflexivity|vm_compute; reflexivity].
  1: reflexivity. 1: left; reflexivity. 1: apply canon_iff; vm_compute; reflexivity.
  1-2: apply iota_free_order; unfold iota_free.
  1: assert (flat_map decomp1 [0x73; 0x307; 0x323] = [0x73; 0x307; 0x323]) as -> by (vm_compute; reflexivity); unfold iota_below; intros [X|[X|[X|[]]]]; discriminate X.
  1: assert (flat_map decomp1 [0x1E69] = [0x73; 0x323; 0x307]) as -> by (vm_compute; reflexivity); unfold iota_below; intros [X|[X|[X|[]]]]; discriminate X.
  1-2: repeat constructor; apply good_ok; vm_compute; reflexivity.
  1-2: vm_compute; reflexivity.
Qed.
