(** Corollaries about lookup with TR46: normalisation, mapping, case, dots. *)
From Verif Require Import Base PunyBase Uenv DataTypes DataTr46 SpecUtf8 SpecPuny SpecTables SpecLabel SpecNfc SpecLookup Gentr46 Tr46Map
  Tr46Facts Utf8 Utf8Proofs Idna Puny PunyTop Lookup LabelProofs NfcProofs MapProofs LookupProofs LookupTr46 LookupIdem LookupMisc.

(** ** C18 *)
Lemma checked_nfc : forall U flags s s8, Forall scalar s -> plain_label s8 -> utf8 s s8 -> checked U flags s ->
  (ascii_p s8 = false -> ue_nfc U s = Some s) /\
  (forall t l32, s8 = ace_prefix ++ t -> ascii_p s8 = true -> puny_decode t 63 63 = Ok l32 -> ue_nfc U l32 = Some l32).
Proof.
  intros U flags s s8 S P US CK. split.
  - intros A. destruct CK as [NX TT|t0 t8 name E8 U8 D8 _].
    + apply tr46_pass_iff in TT; [|now apply scalar_nonneg]. apply TT.
    + exfalso. rewrite E8 in US. assert (US2 : utf8 (ace_prefix ++ t0) (ace_prefix ++ t8)).
      { apply u32_to_u8_iff. rewrite u32_to_u8_app. apply u32_to_u8_iff in U8. rewrite U8. reflexivity. }
      rewrite (utf8_fun _ _ _ US US2) in *. apply not_true_iff_false in A. apply A. apply ascii_p_iff. apply Forall_app. split; [repeat constructor|].
      eapply Forall_impl; [|apply (decode_ascii t8 name D8)]; [cbv beta; lia|].
      destruct P as (_ & _ & P). rewrite zlen_app in P. change (zlen ace_prefix) with 4 in P. lia.
  - intros t l32 E A D. apply ascii_p_iff in A. assert (s = s8) as -> by (eapply utf8_ascii_eq; eauto).
    assert (LT : zlen t < two64). { destruct P as (_ & _ & P). rewrite E, zlen_app in P. change (zlen ace_prefix) with 4 in P. lia. }
    destruct CK as [NX _|t0 t8 name E8 U8 D8 TT]; [exfalso; apply NX; now exists t|]. rewrite E in E8. apply app_inv_head in E8. subst t0.
    pose proof (decode_ascii t l32 D LT) as AT. assert (t8 = t) as ->.
    { apply (utf8_fun t); auto. apply utf8_ascii. eapply Forall_impl; [|exact AT]. cbv beta. lia. }
    rewrite D in D8. injection D8 as <-. apply tr46_pass_iff in TT; [apply TT|]. destruct (decoded t l32 D LT) as (_ & _ & _ & X & _). now apply permitted_nonneg.
Qed.
Lemma Forall2_in_right : forall (A B : Type) (P : A -> B -> Prop) la lb b, Forall2 P la lb -> In b lb -> exists a, In a la /\ P a b.
Proof.
  intros A B P la lb b F. induction F as [|x y la lb H F IH]; intros I; [destruct I|]. destruct I as [->|I]; [exists x; split; [now left|auto]|].
  destruct (IH I) as (a & Ha & Hp). exists a. split; [now right|auto].
Qed.
Lemma lookup_nfc_flag : forall U src f, nfc_ok U -> c_string src -> opt_no_tr46 f = false -> lookup_u8 U src (Z.lor f 1) = lookup_u8 U src f.
Proof.
  intros U src f K C N. change 1 with (2 ^ 0). apply lookup_flags; try (lor_bits 0; tauto).
  intros NB o Ho l Hl. assert (NB2 : ~ bad_flags f) by (revert NB; lor_bits 0; tauto). rewrite N in Ho. cbn [negb] in Ho.
  apply tr46_ok_iff in Ho; auto. destruct Ho as (l0 & n & T).
  destruct (tr46_out _ _ _ _ _ _ T) as (CO & LO). pose proof (plain_split o CO ltac:(unfold two64; lia)) as PS. rewrite Forall_forall in PS.
  pose proof (utf8_split _ _ (k_out _ _ _ _ _ _ T)) as US. destruct (Forall2_in_right _ _ _ _ _ l US Hl) as (s & Hs & UL).
  pose proof (k_checked _ _ _ _ _ _ T) as CK. rewrite Forall_forall in CK. pose proof (split_Forall _ _ (k_scalar _ _ _ _ _ _ T)) as SS. rewrite Forall_forall in SS.
  destruct (checked_nfc U (eff f) s l (SS s Hs) (PS l Hl) UL (CK s Hs)) as (N1 & N2).
  assert (BL : bytes l) by (apply c_string_bytes; apply (PS l Hl)).
  apply label_flags; rewrite ?eff_transitional, ?eff_no_roundtrip, ?eff_nfc; try (lor_bits 0; reflexivity).
  - intros p. f_equal. apply label_tests_ext; rewrite ?eff_std3, ?eff_nontransitional by auto; lor_bits 0; reflexivity.
  - intros A. apply u8_to_u32_iff in UL; auto. rewrite !(u8_nfc_id U l s); auto.
  - intros t l32 src' E A R D E32. rewrite !(u8_nfc_id U src' l32); eauto.
    apply u32_to_u8_iff in E32. apply u8_to_u32_iff; [now apply utf8_bytes in E32|exact E32].
    apply u32_to_u8_iff in E32. apply u8_to_u32_iff; [now apply utf8_bytes in E32|exact E32].
Qed.

(** ** Only the mapped string matters *)
Lemma lookup_mapped : forall U s1 s2 l1 l2 f, nfc_ok U -> c_string s1 -> c_string s2 -> opt_no_tr46 f = false -> utf8 l1 s1 -> utf8 l2 s2 ->
  existsb disallowedb l1 = existsb disallowedb l2 ->
  (existsb disallowedb l2 = false -> uts46_map (opt_transitional f) (opt_std3 f) l1 = uts46_map (opt_transitional f) (opt_std3 f) l2) ->
  lookup_u8 U s1 f = lookup_u8 U s2 f.
Proof.
  intros U s1 s2 l1 l2 f K C1 C2 N U1 U2 D M. unfold lookup_u8. destruct (set_flags_spec f) as [(B & E)|(B & E)]; rewrite E; [reflexivity|]. cbn [bind].
  rewrite has_no_tr46, eff_no_tr46, N. cbn [negb]. rewrite !tr46_eq by auto. unfold tr46_spec.
  apply u8_to_u32_iff in U1; [|now apply c_string_bytes]. apply u8_to_u32_iff in U2; [|now apply c_string_bytes]. rewrite U1, U2, D.
  destruct (existsb disallowedb l2); [reflexivity|]. rewrite !eff_transitional, !eff_std3, M; reflexivity.
Qed.
(** ** C14 *)
Lemma lower_ascii : forall a b, lower a = lower b -> (0 <= a < 128 <-> 0 <= b < 128) /\ (~ (0 <= a < 128) -> a = b).
Proof. intros a b. unfold lower. destruct ((65 <=? a) && _) eqn:E1; destruct ((65 <=? b) && _) eqn:E2; rewrite ?andb_true_iff, ?andb_false_iff, ?Z.leb_le, ?Z.leb_gt in *; lia. Qed.
Lemma sbc_app : forall a b s2, same_but_case (a ++ b) s2 -> exists a2 b2, s2 = a2 ++ b2 /\ same_but_case a a2 /\ same_but_case b b2.
Proof.
  induction a as [|x a IH]; intros b s2 H; cbn [app] in H; [exists [], s2; repeat split; auto; constructor|].
  inversion H as [|? y ? s2' E H']; subst. destruct (IH _ _ H') as (a2 & b2 & -> & Ha & Hb). exists (y :: a2), b2. split; [reflexivity|]. split; [now constructor|auto].
Qed.
Lemma sbc_char : forall c bs bs2, utf8_char c bs -> same_but_case bs bs2 -> exists c2, utf8_char c2 bs2 /\ lower c = lower c2.
Proof.
  intros c bs bs2 H S. assert (G : forall b b2, lower b = lower b2 -> 128 <= b -> b2 = b).
  { intros b b2 E R. symmetry. apply lower_ascii; [exact E|lia]. }
  assert (ID : Forall (fun b => 128 <= b) bs -> bs2 = bs).
  { clear H. induction S as [|a b x y E S IH]; intros F; [reflexivity|]. inversion F; subst. rewrite (G a b E) by auto. now rewrite IH. }
  destruct H as [a R|a b R1 R2 R3|a b d R1 R2 R3 R4 R5|a b d e R1 R2 R3 R4 R5 R6].
  - inversion S as [|? b2 ? y E S']; subst. inversion S'; subst. exists b2. split; [|exact E].
    apply lower_ascii in E. apply utf8_1. tauto.
  - exists (64 * a + b). split; [|reflexivity]. rewrite ID by (repeat apply Forall_cons; [lia|lia|apply Forall_nil]). now apply utf8_2.
  - exists (4096 * a + 64 * b + d). split; [|reflexivity]. rewrite ID by (repeat apply Forall_cons; [lia|lia|lia|apply Forall_nil]). now apply utf8_3.
  - exists (262144 * a + 4096 * b + 64 * d + e). split; [|reflexivity]. rewrite ID by (repeat apply Forall_cons; [lia|lia|lia|lia|apply Forall_nil]). now apply utf8_4.
Qed.
Lemma sbc_utf8 : forall l s s2, utf8 l s -> same_but_case s s2 -> exists l2, utf8 l2 s2 /\ same_but_case l l2.
Proof.
  intros l s s2 H. revert s2. induction H as [|c bs l s Hc Hs IH]; intros s2 S.
  - inversion S; subst. exists []. split; constructor.
  - apply sbc_app in S. destruct S as (a2 & b2 & -> & Sa & Sb). destruct (sbc_char _ _ _ Hc Sa) as (c2 & Hc2 & E).
    destruct (IH _ Sb) as (l2 & H2 & S2). exists (c2 :: l2). split; constructor; auto.
Qed.
Lemma sbc_sym : forall a b, same_but_case a b -> same_but_case b a.
Proof. induction 1; constructor; auto. Qed.
Lemma map1_lower : forall tr std3 c, map1 tr std3 (lower c) = map1 tr std3 c /\ disallowedb (lower c) = disallowedb c.
Proof.
  intros tr std3 c. unfold lower. destruct ((65 <=? c) && (c <=? 90)) eqn:E; [|auto]. rewrite andb_true_iff, !Z.leb_le in E.
  unfold map1, disallowedb. rewrite (lower_digit_valid (c + 32)) by (unfold lower_or_digit; lia). rewrite (status_ascii c) by lia. unfold ascii_status.
  assert ((65 <=? c) && (c <=? 90) = true) as -> by (rewrite andb_true_iff, !Z.leb_le; lia). rewrite mapping_upper by lia. auto.
Qed.
Lemma sbc_map : forall tr std3 a b, same_but_case a b -> uts46_map tr std3 a = uts46_map tr std3 b /\ existsb disallowedb a = existsb disallowedb b.
Proof.
  intros tr std3 a b H. induction H as [|x y a b E H (IH1 & IH2)]; [auto|]. unfold uts46_map in *. cbn [flat_map existsb]. rewrite IH1, IH2.
  destruct (map1_lower tr std3 x) as (X1 & X2). destruct (map1_lower tr std3 y) as (Y1 & Y2). rewrite <- X1, <- Y1, <- X2, <- Y2, E. auto.
Qed.
Lemma lookup_invalid : forall U s f, nfc_ok U -> c_string s -> opt_no_tr46 f = false -> ~ bad_flags f -> (~ exists l, utf8 l s) ->
  lookup_u8 U s f = Fail IDN2_ENCODING_ERROR.
Proof.
  intros U s f K C N B H. unfold lookup_u8. destruct (set_flags_spec f) as [(B' & E)|(_ & E)]; [contradiction|]. rewrite E. cbn [bind].
  rewrite has_no_tr46, eff_no_tr46, N. cbn [negb]. rewrite tr46_eq by auto. unfold tr46_spec.
  destruct (u8_to_u32 s) as [l|] eqn:X; [|reflexivity]. exfalso. apply H. exists l. apply u8_to_u32_iff in X; auto. now apply c_string_bytes.
Qed.
Lemma utf8_dec : forall s, bytes s -> (exists l, utf8 l s) \/ ~ exists l, utf8 l s.
Proof.
  intros s B. destruct (u8_to_u32 s) as [l|] eqn:E; [left; exists l; now apply u8_to_u32_iff|right]. intros (l & H). apply u8_to_u32_iff in H; auto. congruence.
Qed.
Lemma lookup_case : forall U s1 s2 f, nfc_ok U -> c_string s1 -> c_string s2 -> opt_no_tr46 f = false -> same_but_case s1 s2 ->
  lookup_u8 U s1 f = lookup_u8 U s2 f.
Proof.
  intros U s1 s2 f K C1 C2 N S. destruct (utf8_dec s1 (c_string_bytes _ C1)) as [(l1 & U1)|N1].
  - destruct (sbc_utf8 _ _ _ U1 S) as (l2 & U2 & S2). destruct (sbc_map (opt_transitional f) (opt_std3 f) _ _ S2) as (M1 & M2).
    apply (lookup_mapped U s1 s2 l1 l2); auto.
  - assert (N2 : ~ exists l, utf8 l s2). { intros (l2 & U2). destruct (sbc_utf8 _ _ _ U2 (sbc_sym _ _ S)) as (l1 & U1 & _). eauto. }
    destruct (set_flags_spec f) as [(B & E)|(B & _)]; [unfold lookup_u8; rewrite E; reflexivity|]. now rewrite !lookup_invalid.
Qed.
(** ** C15 *)
Lemma stop_rows : idna_row 0x3002 = Some (Row 0x3002 0x3002 Mapped [46]) /\ idna_row 0xFF0E = Some (Row 0xFF0E 0xFF0E Mapped [46]) /\
  idna_row 0xFF61 = Some (Row 0xFF61 0xFF61 Mapped [46]).
Proof. repeat split; vm_compute; reflexivity. Qed.
Transparent status_of mapping_of.
Lemma stop_map : forall tr std3 c, full_stop c -> map1 tr std3 c = [46] /\ disallowedb c = false.
Proof.
  intros tr std3 c H. destruct stop_rows as (R1 & R2 & R3). unfold map1, disallowedb.
  destruct H as [-> | [-> | [-> | -> ]]]; [rewrite (lower_digit_valid 0x2E) by auto; auto|..]; unfold status_of, mapping_of; rewrite ?R1, ?R2, ?R3; auto.
Qed.
Global Opaque status_of mapping_of.
Lemma sbd_map : forall tr std3 a b, same_but_dots a b -> uts46_map tr std3 a = uts46_map tr std3 b /\ existsb disallowedb a = existsb disallowedb b.
Proof.
  intros tr std3 a b H. unfold uts46_map in *. induction H as [|c a b H (IH1 & IH2)|c d a b Hc Hd H (IH1 & IH2)|c a b E H (IH1 & IH2)|c a b E H (IH1 & IH2)]; cbn [flat_map existsb].
  - auto.
  - now rewrite IH1, IH2.
  - destruct (stop_map tr std3 c Hc) as (-> & ->). destruct (stop_map tr std3 d Hd) as (-> & ->). now rewrite IH1, IH2.
  - rewrite IH1, IH2. unfold map1, disallowedb. now rewrite E.
  - rewrite IH1, IH2. unfold map1, disallowedb. now rewrite E.
Qed.
Lemma lookup_dots : forall U s1 s2 l1 l2 f, nfc_ok U -> c_string s1 -> c_string s2 -> opt_no_tr46 f = false -> utf8 l1 s1 -> utf8 l2 s2 ->
  same_but_dots l1 l2 -> lookup_u8 U s1 f = lookup_u8 U s2 f.
Proof.
  intros U s1 s2 l1 l2 f K C1 C2 N U1 U2 S. destruct (sbd_map (opt_transitional f) (opt_std3 f) _ _ S) as (M1 & M2).
  apply (lookup_mapped U s1 s2 l1 l2); auto.
Qed.
