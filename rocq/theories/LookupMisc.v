(** Corollaries about lookup: mapping, flags, ASCII names, error codes. *)
From Verif Require Import Base PunyBase Uenv DataTypes DataTr46 SpecUtf8 SpecPuny SpecTables SpecLabel SpecNfc SpecLookup Gentr46 Tr46Map
  Tr46Facts Utf8 Utf8Proofs Idna Puny PunyTop Lookup LabelProofs NfcProofs MapProofs LookupProofs LookupTr46 LookupIdem Ucd BaseTop.

(** ** Dependence on the flags *)
Lemma label_flags : forall U l f1 f2, opt_transitional f1 = opt_transitional f2 -> opt_no_roundtrip f1 = opt_no_roundtrip f2 ->
  (forall p, label_test U (label_tests f1) p = label_test U (label_tests f2) p) ->
  (ascii_p l = false -> u8_to_u32_nfc U l (opt_nfc f1) = u8_to_u32_nfc U l (opt_nfc f2)) ->
  (forall t l32 src, l = ace_prefix ++ t -> ascii_p l = true -> opt_no_roundtrip f2 = false -> puny_decode t 63 63 = Ok l32 -> u32_to_u8 l32 = Some src ->
     u8_to_u32_nfc U src (opt_nfc f1) = u8_to_u32_nfc U src (opt_nfc f2)) ->
  label U l 63 f1 = label U l 63 f2.
Proof.
  intros U l f1 f2 T R LT N1 N2.
  assert (G : forall src org, u8_to_u32_nfc U src (opt_nfc f1) = u8_to_u32_nfc U src (opt_nfc f2) ->
    label_tail U src org 63 f1 = label_tail U src org 63 f2).
  { intros src org E. unfold label_tail. rewrite !has_nfc, !has_transitional, !has_no_roundtrip, E, T, R.
    destruct (u8_to_u32_nfc U src (opt_nfc f2)); cbn [bind]; try reflexivity. now rewrite LT. }
  unfold label. rewrite !has_no_roundtrip, R. destruct (ascii_p l) eqn:A.
  - destruct (negb (opt_no_roundtrip f2) && has_ace_prefix l) eqn:E; [|reflexivity].
    rewrite andb_true_iff, negb_true_iff, has_ace_iff in E. destruct E as (E1 & t & E2).
    change LABEL_MAX with 63. destruct (puny_decode (skipn 4 l) 63 63) as [l32| | |] eqn:D; cbn [bind]; try reflexivity.
    destruct (u32_to_u8 l32) as [src|] eqn:C; cbn [conv bind]; [|reflexivity]. apply G. subst l. cbn [skipn] in D.
    exact (N2 t l32 src eq_refl eq_refl E1 D C).
  - apply G. apply N1; auto.
Qed.
Lemma label_tests_ext : forall f1 f2, opt_nontransitional f1 = opt_nontransitional f2 -> opt_std3 f1 = opt_std3 f2 -> label_tests f1 = label_tests f2.
Proof. intros f1 f2 H1 H2. rewrite !label_tests_eq, H1, H2. reflexivity. Qed.
Lemma tr46_flags : forall U src f1 f2, opt_transitional f1 = opt_transitional f2 -> opt_std3 f1 = opt_std3 f2 -> tr46 U src f1 = tr46 U src f2.
Proof.
  intros U src f1 f2 T S.
  assert (L1 : forall c, tr46_len1 f1 c = tr46_len1 f2 c) by (intros c; unfold tr46_len1; rewrite !has_transitional, !has_std3, T, S; reflexivity).
  assert (L : forall l n, tr46_len f1 l n = tr46_len f2 l n).
  { induction l as [|c l IH]; intros n; [reflexivity|]. cbn [tr46_len]. rewrite L1. destruct (tr46_len1 f2 c); cbn [bind]; auto. }
  assert (M1 : forall c, tr46_map1 f1 c = tr46_map1 f2 c) by (intros c; unfold tr46_map1; rewrite !has_transitional, !has_std3, T, S; reflexivity).
  assert (M : forall l cap n, tr46_map cap f1 l n = tr46_map cap f2 l n).
  { induction l as [|c l IH]; intros cap n; [reflexivity|]. cbn [tr46_map]. rewrite M1. destruct (tr46_map1 f2 c); cbn [bind]; auto. destruct (_ <? _); auto. }
  assert (C1 : forall s, tr46_check1 U f1 s = tr46_check1 U f2 s) by (intros s; unfold tr46_check1; rewrite !has_transitional, !has_std3, T, S; reflexivity).
  assert (C : forall ls e, tr46_checks U f1 ls e = tr46_checks U f2 ls e).
  { induction ls as [|s ls IH]; intros e; [reflexivity|]. cbn [tr46_checks]. rewrite C1. destruct s as [|c s].
    - destruct ls as [|s2 ls]; [reflexivity|]. destruct (tr46_check1 U f2 []) as [[| | |]| | |]; cbn [bind]; auto.
    - destruct (tr46_check1 U f2 (c :: s)) as [[| | |]| | |]; cbn [bind]; auto. }
  unfold tr46. destruct (u8_to_u32 (src ++ [0])) as [d|]; cbn [conv bind]; [|reflexivity]. rewrite L.
  destruct (tr46_len f2 (removelast d) 0) as [n| | |]; cbn [bind]; try reflexivity. rewrite M.
  destruct (_ <=? _); [reflexivity|]. destruct (tr46_map (n + 1) f2 (removelast d) []) as [tmp| | |]; cbn [bind]; try reflexivity.
  destruct (_ <? _); [reflexivity|]. destruct (ue_nfc U (tmp ++ [0])) as [x|]; cbn [conv bind]; [|reflexivity].
  destruct (until0 x); [|reflexivity]. now rewrite C.
Qed.
(** The label loop on the prepared string, for two flag words. *)
Lemma lookup_flags : forall U src f1 f2, (bad_flags f1 <-> bad_flags f2) -> opt_no_tr46 f1 = opt_no_tr46 f2 ->
  opt_transitional f1 = opt_transitional f2 -> (opt_no_tr46 f2 = false -> opt_std3 f1 = opt_std3 f2) ->
  (~ bad_flags f1 -> forall o, (if negb (opt_no_tr46 f2) then tr46 U src (eff f2) else Ok src) = Ok o ->
     forall l, In l (split_dots o) -> label U l 63 (eff f1) = label U l 63 (eff f2)) ->
  lookup_u8 U src f1 = lookup_u8 U src f2.
Proof.
  intros U src f1 f2 B N T S H. unfold lookup_u8.
  destruct (set_flags_spec f1) as [(B1 & E1)|(B1 & E1)]; destruct (set_flags_spec f2) as [(B2 & E2)|(B2 & E2)]; rewrite E1, E2; try tauto.
  cbn [bind]. rewrite !has_no_tr46, !eff_no_tr46, N. specialize (H B1). destruct (opt_no_tr46 f2) eqn:E; cbn [negb] in *.
  - cbn [bind]. apply lookup_labels_ext. now apply H.
  - rewrite (tr46_flags U src (eff f1) (eff f2)) by (rewrite ?eff_transitional, ?eff_std3; auto).
    destruct (tr46 U src (eff f2)) as [o| | |]; cbn [bind]; try reflexivity. apply lookup_labels_ext. now apply H.
Qed.

Lemma flags_agree : forall U src f1 f2, opt_nfc f1 = opt_nfc f2 -> opt_transitional f1 = opt_transitional f2 ->
  opt_std3 f1 = opt_std3 f2 -> opt_no_tr46 f1 = opt_no_tr46 f2 -> opt_no_roundtrip f1 = opt_no_roundtrip f2 ->
  (bad_flags f1 <-> bad_flags f2) -> lookup_u8 U src f1 = lookup_u8 U src f2.
Proof.
  intros U src f1 f2 H1 H2 H3 H4 H5 B. apply lookup_flags; auto. intros NB o _ l _.
  apply label_flags; rewrite ?eff_transitional, ?eff_no_roundtrip, ?eff_nfc, ?H1, ?H2, ?H5; auto.
  intros p. f_equal. apply label_tests_ext; rewrite ?eff_std3, ?eff_nontransitional, ?H2, ?H4 by tauto; auto.
Qed.
(** ** C17 *)
Lemma lor_bit : forall f k n, 0 <= n -> 0 <= k -> bit (Z.lor f (2 ^ k)) n = bit f n || (n =? k).
Proof. intros f k n H K. rewrite Z.lor_spec, Z.pow2_bits_eqb by lia. f_equal. apply Z.eqb_sym. Qed.
Ltac lor_bits k := unfold bad_flags, opt_nfc, opt_transitional, opt_nontransitional, opt_std3, opt_no_tr46, opt_roundtrip, opt_no_roundtrip in *;
  rewrite ?(lor_bit _ k) by lia; repeat match goal with |- context [?a =? ?b] => change (a =? b) with false || change (a =? b) with true end;
  rewrite ?orb_false_r, ?orb_true_r.
Lemma inert_unassigned : forall U src f, lookup_u8 U src (Z.lor f 16) = lookup_u8 U src f.
Proof. intros U src f. change 16 with (2 ^ 4). apply flags_agree; lor_bits 4; tauto. Qed.
Lemma default_roundtrip : forall U src f, opt_no_roundtrip f = false -> lookup_u8 U src (Z.lor f 2) = lookup_u8 U src f.
Proof. intros U src f H. change 2 with (2 ^ 1). apply flags_agree; lor_bits 1; try tauto. intuition congruence. Qed.
Lemma default_nontransitional : forall U src f, opt_transitional f = false -> opt_no_tr46 f = false -> lookup_u8 U src (Z.lor f 8) = lookup_u8 U src f.
Proof. intros U src f H1 H2. change 8 with (2 ^ 3). apply flags_agree; lor_bits 3; try tauto. intuition congruence. Qed.
Lemma inert_high_bits : forall U src f g, (forall n, 0 <= n <= 7 -> bit f n = bit g n) -> lookup_u8 U src f = lookup_u8 U src g.
Proof.
  intros U src f g H. apply flags_agree; unfold bad_flags, opt_nfc, opt_transitional, opt_nontransitional, opt_std3, opt_no_tr46, opt_roundtrip, opt_no_roundtrip;
  rewrite !H by lia; tauto.
Qed.
Lemma inert_std3 : forall U src f, opt_no_tr46 f = true -> lookup_u8 U src (Z.lor f 32) = lookup_u8 U src f.
Proof.
  intros U src f H. change 32 with (2 ^ 5). apply lookup_flags; try (lor_bits 5; tauto).
  - unfold opt_no_tr46 in *. rewrite H. discriminate.
  - intros NB o _ l _. assert (NT : forall g, opt_no_tr46 g = true -> ~ bad_flags g -> has (label_tests (eff g)) (Z.lor TEST_TRANSITIONAL TEST_NONTRANSITIONAL) = false).
    { intros g G1 G2. rewrite label_tests_eq, eff_nontransitional, G1 by auto. cbn [orb negb]. destruct (opt_std3 (eff g)); reflexivity. }
    assert (NB2 : ~ bad_flags f) by (revert NB; lor_bits 5; tauto).
    assert (H2 : opt_no_tr46 (Z.lor f (2 ^ 5)) = true) by (lor_bits 5; exact H).
    apply label_flags; rewrite ?eff_transitional, ?eff_no_roundtrip, ?eff_nfc; try (lor_bits 5; reflexivity).
    intros p. pose proof (NT _ H2 NB) as N1. pose proof (NT _ H NB2) as N2.
    rewrite !label_tests_eq, !eff_nontransitional in * by auto. rewrite H, H2 in *. cbn [orb negb] in *.
    destruct (opt_std3 (eff (Z.lor f (2 ^ 5)))), (opt_std3 (eff f)); try reflexivity.
Qed.
