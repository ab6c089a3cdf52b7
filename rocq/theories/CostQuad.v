(** Registration takes quadratic time on repeated Arabic-Indic digits. *)
From Coq Require Import String.
From Verif Require Import Base Uenv DataTypes SpecTables SpecNfc Bsearch Tables Gentr46 Tr46Tables Tr46Map Utf8 Bidi Context Idna Puny PunyBase Lookup Api Register Ucd UcdProofs.
From Verif Require Import Cost CostPuny CostLabel CostTop.
Local Open Scope Z_scope.

(** * No count is negative. *)
Lemma after_0 : forall A (m : out A) k, (forall a, 0 <= k a) -> 0 <= after m k.
Proof. intros A [a| | |] k H; cbn [after]; auto; lia. Qed.
Lemma bsearch_0 : forall f cmp lo hi, 0 <= T_bsearch_loop f cmp lo hi.
Proof.
  induction f as [|f IH]; intros cmp lo hi; cbn [T_bsearch_loop]; [lia|]. destruct (lo <? hi); [|lia]. cbv zeta.
  match goal with |- 0 <= 1 + ?r => assert (0 <= r); [|lia] end. apply after_0. intros r. destruct (r <? 0); auto. destruct (0 <? r); auto; lia.
Qed.
Lemma property_0 : forall c, 0 <= T_property c.
Proof. intros c. apply bsearch_0. Qed.
Lemma get_idna_map_0 : forall c, 0 <= T_get_idna_map c.
Proof. intros c. unfold T_get_idna_map. destruct (_ <=? _); [apply bsearch_0|]. destruct (_ <=? _); [apply bsearch_0|]. destruct (_ <=? _); [apply bsearch_0|lia]. Qed.
Lemma each_0 : forall f T l, (forall c, 0 <= T c) -> 0 <= T_each f T l.
Proof. intros f T l H. induction l as [|c r IH]; cbn [T_each]; [lia|]. specialize (H c). assert (0 <= after (f c) (fun _ => T_each f T r)) by (apply after_0; auto). lia. Qed.
Lemma each_pos_0 : forall f T n i, (forall c, 0 <= T c) -> 0 <= T_each_pos f T n i.
Proof. intros f T n i H. revert i. induction n as [|n IH]; intros i; cbn [T_each_pos]; [lia|]. specialize (H i). assert (0 <= after (f i) (fun _ => T_each_pos f T n (i + 1))) by (apply after_0; auto). lia. Qed.
Lemma when_0 : forall b T, 0 <= T -> 0 <= T_when b T.
Proof. intros [] T H; cbn [T_when]; lia. Qed.
Lemma disallowed1_0 : forall w c, 0 <= T_disallowed1 w c.
Proof.
  intros w c. unfold T_disallowed1. pose proof (property_0 c). match goal with |- 0 <= _ + ?r => assert (0 <= r); [|lia] end.
  apply after_0. intros d. destruct (_ && _); [apply get_idna_map_0|lia].
Qed.
Lemma back_0 : forall U l n, 0 <= T_zwnj_back U l n.
Proof.
  intros U l. induction n as [|n IH]; cbn [T_zwnj_back]; match goal with |- 0 <= 1 + ?r => assert (0 <= r); [|lia] end; apply after_0; intros a; cbv zeta; destruct (_ || _); try lia. destruct (joining_eqb _ _); lia.
Qed.
Lemma fwd_0 : forall U l, 0 <= T_zwnj_fwd U l.
Proof. intros U. induction l as [|c r IH]; cbn [T_zwnj_fwd]; [lia|]. cbv zeta. destruct (_ || _); [lia|]. destruct r; [lia|]. destruct (joining_eqb _ _); lia. Qed.
Lemma contextj_0 : forall U l i, 0 <= T_contextj_rule U l i.
Proof.
  intros U l i. unfold T_contextj_rule. cbv zeta. destruct (_ =? 0); [lia|]. apply after_0. intros cp. pose proof (property_0 cp).
  match goal with |- 0 <= _ + ?r => assert (0 <= r); [|lia] end. apply after_0. intros j. destruct (negb j); [lia|]. destruct (cp =? _); [|lia].
  apply after_0. intros v. destruct v; [lia|]. destruct (_ || _); [lia|]. pose proof (back_0 U l (Z.to_nat (i - 1))).
  match goal with |- 0 <= _ + ?r => assert (0 <= r); [|lia] end. apply after_0. intros _. apply fwd_0.
Qed.
Lemma adapt_loop_0 : forall f d, 0 <= T_adapt_loop f d.
Proof. induction f as [|f IH]; intros d; cbn [T_adapt_loop]; [lia|]. destruct (_ <? _); [specialize (IH (d / 35))|]; lia. Qed.
Lemma adapt_0 : forall d n b, 0 <= T_adapt d n b.
Proof. intros. unfold T_adapt. destruct (_ =? 0); [lia|apply adapt_loop_0]. Qed.
Lemma enc_varint_0 : forall f cap mo o bias q k, 0 <= T_enc_varint f cap mo o bias q k.
Proof.
  induction f as [|f IH]; intros; cbn [T_enc_varint]; [lia|]. match goal with |- 0 <= 1 + ?r => assert (0 <= r); [|lia] end. destruct (_ <=? _); [lia|]. cbv zeta.
  destruct (_ <? _); [lia|]. destruct (_ =? 0); [lia|]. apply after_0. intros. apply IH.
Qed.
Lemma enc_scan_0 : forall cap mo b n l st, 0 <= T_enc_scan cap mo b n l st.
Proof.
  intros cap mo b n. induction l as [|c l IH]; intros st; cbn [T_enc_scan]; [lia|]. match goal with |- 0 <= 1 + ?r => assert (0 <= r); [|lia] end.
  apply after_0. intros d. destruct (c =? n); [|apply IH]. pose proof (enc_varint_0 64 cap mo (e_out st) (e_bias st) d 36).
  match goal with |- 0 <= _ + ?r => assert (0 <= r); [|lia] end. apply after_0. intros o. pose proof (adapt_0 d (u32 (e_h st + 1)) (e_h st =? b)).
  match goal with |- 0 <= _ + ?r => assert (0 <= r); [|lia] end. apply after_0. intros. apply IH.
Qed.
Lemma enc_main_0 : forall f cap mo b l n st, 0 <= T_enc_main f cap mo b l n st.
Proof.
  induction f as [|f IH]; intros; cbn [T_enc_main]; (destruct (_ <? _); [|lia]); [lia|]. cbv zeta. pose proof (zlen_nonneg _ l).
  match goal with |- 0 <= 1 + _ + ?r => assert (0 <= r); [|lia] end. destruct (_ =? 0); [lia|]. destruct (_ <? _); [lia|].
  match goal with |- 0 <= T_enc_scan ?a ?b ?c ?d ?e ?g + ?r => pose proof (enc_scan_0 a b c d e g); assert (0 <= r); [|lia] end. apply after_0. intros. apply IH.
Qed.
Lemma enc_basic_0 : forall cap mo l o, 0 <= T_enc_basic cap mo l o.
Proof.
  intros cap mo. induction l as [|c l IH]; intros o; cbn [T_enc_basic]; [lia|]. match goal with |- 0 <= 1 + ?r => assert (0 <= r); [|lia] end.
  destruct (c <? 128); [destruct (_ <? _); [lia|]; apply after_0; intros; apply IH|]. destruct (_ || _); [lia|apply IH].
Qed.
Lemma encode_0 : forall l mo cap, 0 <= T_puny_encode l mo cap.
Proof.
  intros. unfold T_puny_encode. destruct (_ <? _); [lia|]. pose proof (enc_basic_0 cap mo l []). match goal with |- 0 <= _ + ?r => assert (0 <= r); [|lia] end.
  apply after_0. intros o. cbv zeta. apply after_0. intros. apply enc_main_0.
Qed.
Lemma isNFC_0 : forall U l skip last, 0 <= T_isNFC_loop U l skip last.
Proof.
  intros U. induction l as [|c r IH]; intros skip last; cbn [T_isNFC_loop]; [lia|]. destruct skip; [apply IH|]. cbv zeta. destruct (_ && _); [lia|].
  assert (0 <= T_get_nfcqc c) by apply bsearch_0. match goal with |- 0 <= 1 + (_ + ?r) => assert (0 <= r); [|lia] end. apply after_0. intros [q|]; [destruct (negb _); [lia|]|]; apply IH.
Qed.

(** * Runs of ARABIC-INDIC DIGIT ZERO. *)
Definition digit0 : Z := 0x660.
Definition zeros (n : nat) : list Z := repeat digit0 n.
(** ... in UTF-8. *)
Fixpoint zeros8 (n : nat) : list Z := match n with O => [] | S n => 0xD9 :: 0xA0 :: zeros8 n end.
Lemma zeros8_len : forall n, zlen (zeros8 n) = 2 * Z.of_nat n.
Proof. induction n as [|n IH]; [reflexivity|]. cbn [zeros8]. rewrite !zlen_cons. lia. Qed.
Lemma zeros_len : forall n, zlen (zeros n) = Z.of_nat n.
Proof. intros n. unfold zlen, zeros. rewrite repeat_length. reflexivity. Qed.
Lemma zeros8_read : forall n, u8_to_u32 (zeros8 n) = Some (zeros n).
Proof. induction n as [|n IH]; [reflexivity|]. cbn [zeros8 u8_to_u32]. cbn -[u8_to_u32 zeros8 zeros]. rewrite IH. reflexivity. Qed.
Lemma zeros_rd : forall n i, 0 <= i < Z.of_nat n -> rd (zeros n) i = Ok digit0.
Proof.
  intros n i H. unfold rd. destruct (i <? 0) eqn:E; [apply Z.ltb_lt in E; lia|].
  destruct (nth_error (zeros n) (Z.to_nat i)) as [x|] eqn:N.
  - apply nth_error_In in N. apply repeat_spec in N. now subst.
  - apply nth_error_None in N. unfold zeros in N. rewrite repeat_length in N. lia.
Qed.
Lemma digit0_property : property digit0 = Ok CONTEXTO.
Proof. vm_compute. reflexivity. Qed.
Lemma zeros_ext : forall n, existsb is_ext_arabic_indic (zeros n) = false.
Proof. induction n as [|n IH]; [reflexivity|]. cbn [zeros repeat existsb]. exact IH. Qed.
Lemma zeros_each : forall f n, f digit0 = Ok tt -> each f (zeros n) = Ok tt.
Proof. intros f n H. induction n as [|n IH]; [reflexivity|]. change (zeros (S n)) with (digit0 :: zeros n). cbn [each]. rewrite H. exact IH. Qed.
Lemma zeros_each_pos : forall f n k i, (forall j, 0 <= j < Z.of_nat n -> f j = Ok tt) -> 0 <= i -> i + Z.of_nat k <= Z.of_nat n -> each_pos f k i = Ok tt.
Proof. intros f n. induction k as [|k IH]; intros i H H0 H1; [reflexivity|]. cbn [each_pos]. rewrite H by lia. cbn [bind]. apply IH; auto; lia. Qed.

Section Quad.
  Variable U : uenv.
  Lemma zeros_contextj : forall n j, 0 <= j < Z.of_nat n -> contextj_rule U (zeros n) j = Ok tt.
  Proof.
    intros n j H. unfold contextj_rule. cbv zeta. destruct (_ =? 0); [reflexivity|]. rewrite zeros_rd by exact H. cbn [bind].
    unfold contextj_p. rewrite digit0_property. reflexivity.
  Qed.
  Lemma zeros_contexto : forall n j, 0 <= j < Z.of_nat n -> contexto_rule U (zeros n) j = Ok tt /\ Z.of_nat n <= T_contexto_rule U (zeros n) j.
  Proof.
    intros n j H. unfold contexto_rule, T_contexto_rule. cbv zeta. rewrite zeros_rd by exact H. cbn [bind after].
    unfold contexto_p. rewrite digit0_property. cbn [bind after prop_eqb negb].
    change (digit0 =? 183) with false. change (digit0 =? 885) with false. change (digit0 =? 1523) with false. change (digit0 =? 1524) with false. cbn [orb].
    change (is_arabic_indic digit0) with true. cbv iota. rewrite zeros_ext. split; [reflexivity|].
    rewrite (existsb_full _ _ _ (zeros_ext n)), zeros_len. pose proof (property_0 digit0). lia.
  Qed.
  Lemma zeros_contexto_sum : forall n k i, 0 <= i -> i + Z.of_nat k <= Z.of_nat n ->
    Z.of_nat k * Z.of_nat n <= T_each_pos (contexto_rule U (zeros n)) (T_contexto_rule U (zeros n)) k i.
  Proof.
    intros n. induction k as [|k IH]; intros i H0 H1; cbn [T_each_pos]; [lia|].
    destruct (zeros_contexto n i ltac:(lia)) as [E T]. rewrite E. cbn [after]. specialize (IH (i + 1) ltac:(lia) ltac:(lia)). lia.
  Qed.

  Hypothesis quick : qc_sound U.
  Hypothesis ccc0 : ue_ccc U digit0 = 0.
  Hypothesis mark0 : ue_mark U digit0 = false.
  Lemma zeros_nfc : forall n, ue_nfc U (zeros n) = Some (zeros n).
  Proof.
    intros n. apply quick. assert (Q : nfc_qc digit0 = None) by (vm_compute; reflexivity). generalize 0.
    induction n as [|n IH]; intros last; [exact I|]. change (zeros (S n)) with (digit0 :: zeros n). cbn [qc_yes]. auto.
  Qed.
  Lemma list_eqb_same : forall l, list_eqb l l = true.
  Proof. induction l as [|c l IH]; [reflexivity|]. cbn [list_eqb]. rewrite Z.eqb_refl, IH. reflexivity. Qed.
  Lemma test_quadratic : forall n, Z.of_nat n * Z.of_nat n <= T_label_test U REGISTER_TESTS (zeros n).
  Proof.
    intros n. unfold T_label_test.
    change (has REGISTER_TESTS TEST_NFC) with true. change (has REGISTER_TESTS TEST_2HYPHEN) with true. change (has REGISTER_TESTS TEST_HYPHEN_STARTEND) with true.
    change (has REGISTER_TESTS TEST_LEADING_COMBINING) with true. change (has REGISTER_TESTS TEST_DISALLOWED) with true. change (has REGISTER_TESTS TEST_CONTEXTJ) with false.
    change (has REGISTER_TESTS TEST_CONTEXTJ_RULE) with true. change (has REGISTER_TESTS TEST_CONTEXTO) with false. change (has REGISTER_TESTS TEST_CONTEXTO_WITH_RULE) with false.
    change (has REGISTER_TESTS TEST_CONTEXTO_RULE) with true. change (has REGISTER_TESTS TEST_UNASSIGNED) with true. change (has REGISTER_TESTS TEST_BIDI) with true.
    change (has REGISTER_TESTS (Z.lor TEST_TRANSITIONAL TEST_NONTRANSITIONAL)) with false. cbn [when T_when].
    assert (E1 : test_nfc U (zeros n) = Ok tt) by (unfold test_nfc; rewrite zeros_nfc; cbn [conv bind]; rewrite list_eqb_same; reflexivity).
    assert (E2 : test_2hyphen (zeros n) = Ok tt) by (destruct n as [|[|[|[|n]]]]; reflexivity).
    assert (E3 : test_hyphen_startend (zeros n) = Ok tt).
    { destruct n as [|n]; [reflexivity|]. unfold test_hyphen_startend. change (zeros (S n)) with (digit0 :: zeros n). cbv iota.
      assert (L : last (digit0 :: zeros n) 0 = digit0) by (clear; induction n as [|n I]; [reflexivity|exact I]). rewrite L. reflexivity. }
    assert (E4 : test_leading_combining U (zeros n) = Ok tt) by (destruct n; [reflexivity|]; unfold test_leading_combining; cbn [zeros repeat]; rewrite mark0; reflexivity).
    assert (E5 : each (test_disallowed1 REGISTER_TESTS) (zeros n) = Ok tt) by (apply zeros_each; unfold test_disallowed1, disallowed_p; rewrite digit0_property; reflexivity).
    assert (LN : length (zeros n) = n) by apply repeat_length. rewrite LN.
    assert (E6 : each_pos (contextj_rule U (zeros n)) n 0 = Ok tt) by (apply (zeros_each_pos _ n); [apply zeros_contextj|lia|lia]).
    rewrite E1, E2, E3, E4, E5, E6. cbn [after].
    assert (A : 0 <= after (conv (ue_nfc U (zeros n)) IDN2_NFC) (fun p => T_list_eqb (zeros n) p)) by (apply after_0; intros p; apply list_eqb_le).
    pose proof (each_0 (test_disallowed1 REGISTER_TESTS) (T_disallowed1 REGISTER_TESTS) (zeros n) (disallowed1_0 _)).
    pose proof (each_pos_0 (contextj_rule U (zeros n)) (T_contextj_rule U (zeros n)) n 0 (contextj_0 U _)).
    pose proof (zeros_contexto_sum n n 0 ltac:(lia) ltac:(lia)) as Q.
    match goal with |- _ <= _ + (_ + (0 + (_ + (0 + (0 + (_ + ?r)))))) => assert (0 <= r); [|lia] end.
    apply after_0. intros _. pose proof (each_0 test_unassigned1 T_property (zeros n) property_0).
    match goal with |- 0 <= _ + ?r => assert (0 <= r); [|lia] end. apply after_0. intros _. pose proof (bidi_le U (zeros n)).
    match goal with |- 0 <= _ + ?r => assert (0 <= r); [|lia] end. apply after_0. intros _. lia.
  Qed.
  Lemma register_quadratic : forall n flags, (0 < n)%nat -> has flags IDN2_NFC_INPUT = false ->
    Z.of_nat n * Z.of_nat n <= T_register_u8 U (Some (zeros8 n)) None flags.
  Proof.
    intros n flags H F. unfold T_register_u8, T_reg_ulabel, T_scan.
    assert (NA : ascii_p (zeros8 n) = false) by (destruct n; [lia|reflexivity]). rewrite NA, F. unfold T_u8_to_u32_nfc, u8_to_u32_nfc. rewrite zeros8_read. cbn [conv bind after].
    pose proof (test_quadratic n). pose proof (zlen_nonneg _ (zeros8 n)). pose proof (existsb_le _ (fun c => negb (c <? 128)) (zeros8 n)) as A. fold (T_forallb (fun b => b <? 128) (zeros8 n)) in A. fold (T_ascii_p (zeros8 n)) in A.
    match goal with |- _ <= _ + (_ + (_ + ?r)) => assert (0 <= r); [|lia] end. apply after_0. intros _.
    pose proof (encode_0 (zeros n) (LABEL_MAX - 4) (LABEL_MAX - 3)). match goal with |- 0 <= _ + ?r => assert (0 <= r); [|lia] end. apply after_0. intros e. pose proof (zlen_nonneg _ e). lia.
  Qed.
  Lemma register_not_linear : forall A B, exists u, A * zlen u + B < T_register_u8 U (Some u) None 0.
  Proof.
    intros A B. set (n := Z.to_nat (2 * Z.abs A + Z.abs B + 2)). exists (zeros8 n). rewrite zeros8_len.
    pose proof (register_quadratic n 0 ltac:(unfold n; lia) eq_refl) as Q.
    assert (N : Z.of_nat n = 2 * Z.abs A + Z.abs B + 2) by (unfold n; lia). rewrite N in *. nia.
  Qed.
End Quad.
