(** ToUnicode after ToASCII, and back. *)
From Verif Require Import Base PunyBase PunyRT PunyInv Uenv DataTypes SpecUtf8 SpecPuny SpecTables SpecLabel SpecNfc SpecLookup Gentr46 Tr46Map
  Tr46Facts Utf8 Utf8Proofs Idna Puny PunyTop PunyComplete Lookup LabelProofs NfcProofs MapProofs LookupProofs LookupTr46 LookupIdem LookupTop
  Api SpecUnicode DecodeProofs.

Lemma dec_unicode : forall enc p, puny_decode enc 63 63 = Ok p -> zlen enc < two64 -> unicode_of (ace_prefix ++ enc) p.
Proof.
  intros enc p D L. apply decode_iff in D; auto; try lia. destruct D as (D1 & D2 & D3 & D4 & D5).
  apply (uo_ace _ enc); auto. exists 120, 110. auto.
Qed.
Lemma ace_2hyphen : forall s t, ace_label s t -> exists a b r, s = a :: b :: 0x2D :: 0x2D :: r.
Proof. intros s t (x & n & -> & _). eauto. Qed.

(** A non-ASCII label that passed the hyphen test is not an A-label in UTF-8 either. *)
Lemma utf8_ace : forall l s t, utf8 l s -> ace_label s t -> exists t', ace_label l t'.
Proof.
  intros l s t U (x & n & E & Hx & Hn).
  assert (G : forall c s l, utf8 l (c :: s) -> 0 <= c < 128 -> exists l', l = c :: l' /\ utf8 l' s).
  { clear. intros c s l U R. inversion U as [|c' bs l' s' HC HU E1 E2]; subst. destruct HC; cbn [app] in E2; (assert (E3 := f_equal (hd 0) E2)); cbn [hd] in E3; try lia.
    assert (E4 := f_equal (@tl Z) E2). cbn [tl] in E4. subst. eauto. }
  subst s. apply G in U; [|lia]. destruct U as (l1 & -> & U). apply G in U; [|lia]. destruct U as (l2 & -> & U).
  apply G in U; [|lia]. destruct U as (l3 & -> & U). apply G in U; [|lia]. destruct U as (l4 & -> & U).
  exists l4, x, n. auto.
Qed.
Lemma ace_utf8 : forall l s t, utf8 l s -> ace_label l t -> exists t', ace_label s t'.
Proof.
  intros l s t U (x & n & E & Hx & Hn). subst l.
  assert (G : forall c s l, utf8 (c :: l) s -> 0 <= c < 128 -> exists s', s = c :: s' /\ utf8 l s').
  { clear. intros c s l U R. inversion U as [|c' bs l' s' HC HU E1 E2]; subst.
    apply uctomb_complete in HC. unfold u8_uctomb in HC. destruct (c <? 0) eqn:X1; zb; [lia|]. destruct (c <? 128) eqn:X2; zb; [|lia].
    injection HC as <-. cbn [app]. eauto. }
  apply G in U; [|lia]. destruct U as (l1 & -> & U). apply G in U; [|lia]. destruct U as (l2 & -> & U).
  apply G in U; [|lia]. destruct U as (l3 & -> & U). apply G in U; [|lia]. destruct U as (l4 & -> & U).
  exists l4, x, n. auto.
Qed.

Definition shorter (l r : list Z) : Prop := zlen r <= zlen l.
Lemma join_zlen : forall ls rs, Forall2 shorter ls rs -> zlen (join rs) <= zlen (join ls).
Proof.
  unfold shorter. induction 1 as [|l r ls rs H F IH]; [lia|]. destruct F as [|l2 r2 ls rs H2 F]; [cbn [join]; lia|].
  rewrite !join_cons2, !zlen_app, !zlen_cons. lia.
Qed.

(** The Unicode forms of the labels of a result. *)
Lemma converted_unicode : forall U flags s8 d, converted U flags s8 d -> (~ xn d -> ~ exists t, ace_label d t) ->
  exists p, unicode_of d p /\ zlen p <= zlen d /\ Forall scalar p.
Proof.
  intros U flags s8 d [A N L|p enc l D E S NF T L F _ _] NU.
  - exists s8. split; [|split].
    + apply uo_plain; auto. apply utf8_ascii. eapply Forall_impl; [|exact A]. cbv beta. lia.
    + lia.
    + eapply Forall_impl; [|exact A]. unfold scalar. cbv beta. lia.
  - exists p. split; [apply dec_unicode; auto; unfold two64; lia|]. split; auto.
    pose proof (decode_safe enc 63 63 ltac:(lia) ltac:(lia) ltac:(unfold two64; lia)) as X. rewrite D in X.
    rewrite zlen_app. change (zlen ace_prefix) with 4. lia.
Qed.

Lemma unicode_of_fun : forall s a b, bytes s -> zlen s < two64 -> unicode_of s a -> unicode_of s b -> a = b.
Proof. intros s a b B L H1 H2. apply unicode_label_iff in H1, H2; auto. congruence. Qed.


Lemma lower_no_ace : forall d, Forall (fun c => ~ (65 <= c <= 90)) d -> ~ xn d -> ~ exists t, ace_label d t.
Proof.
  intros d F N (t & x & n & -> & Hx & Hn). inversion F as [|? ? F1 F2]; subst. inversion F2; subst. apply N. exists t.
  destruct Hx as [->| ->]; [|lia]. destruct Hn as [->| ->]; [|lia]. reflexivity.
Qed.

Lemma unicode_intro : forall s ls rs, c_string s -> zlen s < two64 -> dotted ls s -> Forall2 unicode_of ls rs -> zlen (join rs) <= 255 ->
  unicode s = Ok (join rs).
Proof.
  intros s ls rs C L D F Z. apply unicode_iff; auto. exists ls, rs. split; auto. split; auto. split; auto. split; [|split; [|reflexivity]].
  - intros ->. destruct D as (D & _). inversion F. congruence.
  - destruct D as (_ & D & _). clear - D F. induction F as [|x y xs ys U F IH]; [constructor|]. inversion D; subst. constructor; auto.
    exact (unicode_of_nodot x y U ltac:(auto)).
Qed.

(** ToUnicode accepts what ToASCII produced. *)
Lemma unicode_of_result : forall U src f r, nfc_ok U -> c_string src -> zlen src < two64 -> opt_no_roundtrip f = false ->
  lookup_u8 U src f = Ok r -> (opt_no_tr46 f = true -> no_upper_ace r) -> exists n, unicode r = Ok n /\ Forall scalar n.
Proof.
  intros U src f r K C L R H NU. pose proof (lookup_shape U src f r K C L H) as (A & _ & ZZ).
  apply lookup_converted in H; auto. destruct H as (B & o & ds & P & F & D & Z & CV & TR).
  assert (CS : c_string r) by (eapply Forall_impl; [|exact A]; cbv beta; lia).
  assert (NU' : Forall (fun d => ~ xn d -> ~ exists t, ace_label d t) ds).
  { destruct (opt_no_tr46 f) eqn:N; [now apply NU|]. destruct (TR eq_refl) as (_ & FX). eapply Forall_impl; [|exact FX].
    intros d Fd. apply lower_no_ace. eapply Forall_impl; [|exact Fd]. cbv beta. tauto. }
  assert (G : exists rs, Forall2 unicode_of ds rs /\ Forall2 shorter ds rs /\ Forall (Forall scalar) rs).
  { clear - CV NU'. induction CV as [|s8 d ss dd H CV IH]; [exists []; auto|]. inversion NU'; subst. destruct (IH ltac:(auto)) as (rs & I1 & I2 & I3).
    destruct (converted_unicode _ _ _ _ H ltac:(auto)) as (p & P1 & P2 & P3). exists (p :: rs). auto. }
  destruct G as (rs & G1 & G2 & G3). pose proof (join_zlen _ _ G2) as JZ.
  exists (join rs). split.
  - apply (unicode_intro r ds); auto; destruct D as (_ & _ & D); unfold two64; [lia|]. rewrite D in ZZ. lia.
  - apply join_Forall; [unfold scalar; lia|auto].
Qed.

(** It is the Unicode form of the prepared name. *)

Lemma checked_no_upper : forall U flags s, Forall (fun c => 0 <= c) s -> checked U flags s -> ~ xn s -> ~ exists t, ace_label s t.
Proof.
  intros U flags s S [N T|t t8 name E _ _ _] NX (t' & A); [|apply NX; exists t; exact E].
  apply tr46_pass_iff in T; auto. destruct T as (_ & T & _). apply T. eapply ace_2hyphen; eauto.
Qed.

Lemma unicode_of_prepared : forall U src f r n, nfc_ok U -> c_string src -> zlen src < two64 -> opt_no_roundtrip f = false -> opt_no_tr46 f = false ->
  lookup_u8 U src f = Ok r -> unicode r = Ok n -> exists o, tr46_prepared U f src o /\ unicode o = Ok n.
Proof.
  intros U src f r n K C L R N H HU. pose proof (lookup_shape U src f r K C L H) as (A & _ & ZZ).
  assert (CS : c_string r) by (eapply Forall_impl; [|exact A]; cbv beta; lia).
  apply lookup_converted in H; auto. destruct H as (B & o & ds & P & F & D & Z & CV & TR).
  destruct P as [N'|o l m N' T]; [rewrite eff_no_tr46 in N'; congruence|]. exists o. split.
  { exists l, m. split; [apply (k_src _ _ _ _ _ _ T)|]. split; [|apply (k_out _ _ _ _ _ _ T)].
    pose proof (k_nfc _ _ _ _ _ _ T) as X. now rewrite eff_transitional, eff_std3 in X. }
  destruct (tr46_out _ _ _ _ _ _ T) as (CO & LO). assert (LO' : zlen o < two64) by (unfold two64; lia).
  pose proof (plain_split o CO LO') as PS.
  pose proof (k_checked _ _ _ _ _ _ T) as CK. pose proof (utf8_split _ _ (k_out _ _ _ _ _ _ T)) as US.
  pose proof (split_Forall _ _ (k_scalar _ _ _ _ _ _ T)) as SC.
  apply unicode_iff in HU; [|exact CS|unfold two64; lia]. destruct HU as (ds' & rs & D' & FU & DR & ZR).
  assert (ds' = ds) as -> by (apply dotted_iff in D, D'; congruence).
  destruct DR as (_ & _ & ->). apply (unicode_intro o (split_dots o)); auto; [now apply dotted_iff|].
  destruct (TR N) as (_ & FX).
  clear D D' Z F B ZR ZZ T TR. revert rs FU. revert ds CV FX. revert CK PS SC. induction US as [|s s8 ss ss8 HU US IH]; intros CK PS SC ds CV FX rs FU.
  { inversion CV; subst. inversion FU; subst. constructor. }
  inversion CV as [|? d ? dd HC CV']; subst. inversion FU as [|? p ? ps HP FU']; subst. inversion CK as [|? ? CK1 CK']; subst.
  inversion PS as [|? ? PS1 PS']; subst. inversion FX as [|? ? FX1 FX']; subst. inversion SC as [|? ? SC1 SC']; subst. constructor; [|eauto]. clear IH.
  destruct (plain_bytes _ PS1) as (B8 & L8).
  destruct HC as [A8 N8 Z8|p' enc l' DE E S NF TT LE FE LS NM]; [exact HP|].
  assert (p' = p) as ->.
  { apply (unicode_of_fun (ace_prefix ++ enc)); auto.
    - unfold bytes. apply Forall_app. split; [repeat constructor; lia|]. eapply Forall_impl; [|exact FE]. cbv beta. lia.
    - rewrite zlen_app. change (zlen ace_prefix) with 4. unfold two64. lia.
    - apply dec_unicode; auto. unfold two64; lia. }
  destruct LS as [LS|(t & -> & DT)].
  - assert (l' = s) as -> by (apply u8_to_u32_iff in LS, HU; auto; congruence).
    destruct CK1 as [NX TT1|t t8 name E8 U8 D8 TT1].
    + apply tr46_pass_iff in TT1; [|eapply Forall_impl; [|exact SC1]; unfold scalar; intros; lia].
      pose proof (norm_fixed _ _ _ _ NM (proj1 TT1)) as ->. apply uo_plain; auto.
      * intros (t & At). destruct (utf8_ace _ _ _ LS At) as (t' & At'). destruct TT1 as (_ & TT1 & _). apply TT1. eapply ace_2hyphen; eauto.
      * pose proof (decode_safe enc 63 63 ltac:(lia) ltac:(lia) ltac:(unfold two64; lia)) as X. rewrite DE in X. lia.
    + (* s = xn--t is its own encoding: it would be ASCII *)
      subst s. assert (US2 : utf8 (ace_prefix ++ t) (ace_prefix ++ t8)).
      { apply u32_to_u8_iff. rewrite u32_to_u8_app. apply u32_to_u8_iff in U8. rewrite U8. reflexivity. }
      pose proof (utf8_fun _ _ _ HU US2) as ->.
      assert (LT8 : zlen t8 < two64) by (rewrite zlen_app in L8; change (zlen ace_prefix) with 4 in L8; lia).
      pose proof (decode_ascii t8 name D8 LT8) as AT.
      assert (t = t8) as -> by (apply utf8_ascii_eq; auto; eapply Forall_impl; [|exact AT]; cbv beta; lia).
      (* then p is ASCII, contradiction with its decoding *)
      exfalso. assert (PA : p = ace_prefix ++ t8).
      { apply (norm_fixed _ _ _ _ NM). apply nfc_ascii; auto. apply Forall_app. split; [repeat constructor; lia|].
        eapply Forall_impl; [|exact AT]. cbv beta. lia. }
      pose proof (decode_safe enc 63 63 ltac:(lia) ltac:(lia) ltac:(unfold two64; lia)) as X. rewrite DE in X.
      destruct X as (_ & _ & _ & _ & _ & X). rewrite PA in X. apply Exists_app in X. destruct X as [X|X].
      * apply Exists_exists in X. destruct X as (c & I & G). cbn in I. lia.
      * apply Exists_exists in X. destruct X as (c & I & G). rewrite Forall_forall in AT. apply AT in I. lia.
  - assert (LT : zlen t < two64) by (rewrite zlen_app in L8; change (zlen ace_prefix) with 4 in L8; lia).
    assert (s = ace_prefix ++ t) as ->.
    { apply utf8_ascii_eq; auto. apply Forall_app. split; [repeat constructor; lia|]. eapply Forall_impl; [|exact (decode_ascii _ _ DT LT)]. cbv beta. lia. }
    destruct CK1 as [NX TT1|t0 t8 name E8 U8 D8 TT1]; [exfalso; apply NX; now exists t|].
    apply app_inv_head in E8. subst t0. pose proof (decode_ascii _ _ DT LT) as AT. assert (t8 = t) as ->.
    { apply (utf8_fun t); auto. apply utf8_ascii. eapply Forall_impl; [|exact AT]. cbv beta. lia. }
    rewrite DT in D8. injection D8 as <-. pose proof (decode_safe t 63 63 ltac:(lia) ltac:(lia) LT) as X. rewrite DT in X.
    destruct X as (_ & _ & _ & X & _). apply tr46_pass_iff in TT1; [|now apply permitted_nonneg].
    pose proof (norm_fixed _ _ _ _ NM (proj1 TT1)) as ->. now apply dec_unicode.
Qed.

(** ** Back to ASCII *)
Lemma label_back : forall U flags s8 d p b, nfc_ok U -> opt_no_roundtrip flags = false -> converted U flags s8 d -> (~ xn d -> ~ exists t, ace_label d t) ->
  unicode_of d p -> utf8 p b -> label U b 63 flags = Ok d.
Proof.
  intros U flags s8 d p b K R HC NU HP UB. destruct HC as [A8 N8 Z8|p' enc l' DE E S NF TT LE FE LS NM].
  - assert (b = s8) as ->.
    { destruct HP as [t l A|l N U8 _]; [exfalso; apply (NU N8); eauto|]. assert (l = s8) as -> by (apply utf8_ascii_eq; auto; eapply Forall_impl; [|exact A8]; cbv beta; lia).
      eapply utf8_fun; eauto. }
    apply label_plain; auto. eapply Forall_impl; [|exact A8]. cbv beta. lia.
  - assert (p' = p) as ->.
    { apply (unicode_of_fun (ace_prefix ++ enc)); auto.
      - unfold bytes. apply Forall_app. split; [repeat constructor; lia|]. eapply Forall_impl; [|exact FE]. cbv beta. lia.
      - rewrite zlen_app. change (zlen ace_prefix) with 4. unfold two64. lia.
      - apply dec_unicode; auto. unfold two64; lia. }
    pose proof (decode_safe enc 63 63 ltac:(lia) ltac:(lia) ltac:(unfold two64; lia)) as X. rewrite DE in X. destruct X as (_ & _ & _ & _ & _ & X).
    assert (NA : ~ Forall (fun b => b < 128) b).
    { intros FB. pose proof (utf8_ascii_eq _ _ UB FB) as ->. apply Exists_exists in X. destruct X as (c & I & G). rewrite Forall_forall in FB. apply FB in I. lia. }
    unfold label. destruct (ascii_p b) eqn:AB; [apply ascii_p_iff in AB; contradiction|].
    assert (U32 : u8_to_u32 b = Some p) by (apply u8_to_u32_iff in UB; auto; now apply (utf8_bytes p)).
    eapply (label_tail_intro U b None flags p p enc); auto.
    + now apply u8_nfc_id.
    + constructor; [apply norm_id| |exact E]. intros HT. apply lookup_pass_iff; [now apply scalar_nonneg|]. now apply TT.
Qed.

Lemma nfc_join : forall U ls, nfc_ok U -> ls <> [] -> Forall (fun l => ue_nfc U l = Some l) ls -> ue_nfc U (join ls) = Some (join ls).
Proof.
  intros U ls K. induction ls as [|l ls IH]; intros NE F; [congruence|]. inversion F; subst. destruct ls as [|l2 ls]; [assumption|].
  rewrite join_cons2. rewrite (nfc_separator U K 46 l (join (l2 :: ls))) by (right; reflexivity). rewrite H1, IH; auto. discriminate.
Qed.
Lemma utf8_app : forall a b x y, utf8 a x -> utf8 b y -> utf8 (a ++ b) (x ++ y).
Proof. intros a b x y HA HB. apply u32_to_u8_iff in HA, HB. apply u32_to_u8_iff. now rewrite u32_to_u8_app, HA, HB. Qed.


Lemma pass_fixed : forall U std3 p, tr46_pass U false std3 p -> (std3 = true \/ Forall (fun c => status_of c <> Std3Mapped) p) ->
  Forall (fixed false std3) p.
Proof.
  intros U std3 p (_ & _ & _ & _ & _ & T) M. unfold ok_status in T. rewrite Forall_forall in *. intros c I. specialize (T c I).
  unfold fixed, map1. destruct T as [->|[(_ & ->)|(E & T)]]; [split; [reflexivity|discriminate]..|].
  destruct M as [->|M]; [discriminate|]. specialize (M c I). destruct std3; [discriminate|].
  destruct T as [T|T]; [rewrite T; split; [reflexivity|discriminate]|contradiction].
Qed.

Lemma lookup_back : forall U src f r n b, nfc_ok U -> c_string src -> zlen src < two64 -> opt_no_roundtrip f = false ->
  lookup_u8 U src f = Ok r -> (opt_no_tr46 f = true -> no_upper_ace r) -> unicode r = Ok n -> stable f n -> utf8 n b ->
  lookup_u8 U b f = Ok r.
Proof.
  intros U src f r n b K C L R H NU HU ST UB. pose proof (lookup_shape U src f r K C L H) as (A & _ & ZZ).
  assert (CS : c_string r) by (eapply Forall_impl; [|exact A]; cbv beta; lia).
  assert (LR : zlen r < two64) by (unfold two64; lia).
  pose proof (unicode_u32 r n CS LR HU) as UN.
  apply lookup_converted in H; auto. destruct H as (B & o & ds & P & F & D & Z & CV & TR).
  assert (NU' : Forall (fun d => ~ xn d -> ~ exists t, ace_label d t) ds).
  { destruct (opt_no_tr46 f) eqn:N; [now apply NU|]. destruct (TR eq_refl) as (_ & FX). eapply Forall_impl; [|exact FX].
    intros d Fd. apply lower_no_ace. eapply Forall_impl; [|exact Fd]. cbv beta. tauto. }
  apply unicode_iff in HU; auto. destruct HU as (ds' & rs & D' & FU & DR & ZR).
  assert (ds' = ds) as -> by (apply dotted_iff in D, D'; congruence).
  assert (NB : c_string b).
  { pose proof (utf8_bytes _ _ UB) as BB. apply Forall_forall. intros x I. assert (x <> 0).
    { intros ->. apply (utf8_In n b 0 UB) in I; [|lia]. unfold u32_string in UN. rewrite Forall_forall in UN. apply UN in I. lia. }
    unfold bytes in BB. rewrite Forall_forall in BB. specialize (BB x I). lia. }
  pose proof (utf8_split _ _ UB) as US. assert (SN : split_dots n = rs) by now apply dotted_iff. rewrite SN in US.
  pose proof D as (D1 & D2 & D3). rewrite D3. apply (lookup_intro U b f b ds); auto.
  - destruct (opt_no_tr46 f) eqn:N; [apply prep_raw; now rewrite eff_no_tr46|].
    destruct (TR eq_refl) as (CK & FX). destruct ST as [ST|(NT & ST)]; [congruence|].
    assert (G : Forall2 (fun d p => checked U (eff f) d /\ unicode_of d p /\ (~ xn d -> ~ exists t, ace_label d t) /\
      Forall (fun b => 0 < b < 128) d /\ zlen d < two64) ds rs).
    { assert (AD : Forall (fun d => Forall (fun b => 0 < b < 128) d /\ zlen d < two64) ds).
      { apply Forall_forall. intros d I. split.
        - apply Forall_forall. intros c Hc. rewrite Forall_forall in A. apply A. rewrite D3. eapply join_In; eauto.
        - apply dotted_iff in D. rewrite <- D in I. apply split_zlen in I. lia. }
      clear - FU CK NU' AD. induction FU as [|d p ds rs Hd FU IH]; [constructor|].
      inversion CK; subst. inversion NU'; subst. inversion AD; subst. constructor; [tauto|auto]. }
    assert (TP : Forall (fun p => tr46_pass U false (opt_std3 f) p /\ ~ xn p) rs).
    { eapply Forall2_right; [exact G|]. cbv beta. intros d p _ (CD & UD & ND & AD & LD).
      assert (NXP : forall q, ok_2hyphen q -> ~ xn q) by (intros q Hq (t & ->); apply Hq; eauto).
      assert (AD' : Forall (fun c => 0 <= c < 128) d) by (eapply Forall_impl; [|exact AD]; cbv beta; lia).
      destruct CD as [NX TT|t t8 name E8 U8 D8 TT].
      - apply tr46_pass_iff in TT; [|eapply Forall_impl; [|exact AD]; cbv beta; lia]. rewrite eff_transitional, eff_std3, NT in TT. cbn [negb andb] in TT.
        destruct UD as [t l At|l N1 U1 _]; [exfalso; apply (ND NX); eauto|].
        assert (l = d) as -> by (apply utf8_ascii_eq; auto; eapply Forall_impl; [|exact AD]; cbv beta; lia). split; [exact TT|]. apply NXP. apply TT.
      - subst d. apply Forall_app in AD'. assert (t8 = t) as -> by (apply (utf8_fun t); auto; apply utf8_ascii; tauto).
        assert (LT : zlen t < two64) by (rewrite zlen_app in LD; change (zlen ace_prefix) with 4 in LD; lia).
        assert (name = p) as ->.
        { destruct UD as [t' l At F1 F2 F3 F4 F5|l N1 U1 _].
          - pose proof (ace_label_skip _ _ At) as X. change (skipn 4 (ace_prefix ++ t)) with t in X. subst t'.
            assert (D9 : puny_decode t 63 63 = Ok l) by (apply decode_iff; auto; lia). congruence.
          - exfalso. apply N1. exists t, 120, 110. auto. }
        apply tr46_pass_iff in TT.
        + rewrite eff_std3 in TT. cbn [negb andb] in TT. split; [exact TT|]. apply NXP. apply TT.
        + pose proof (decode_safe t 63 63 ltac:(lia) ltac:(lia) LT) as X. rewrite D8 in X. apply permitted_nonneg. tauto. }
    assert (FN : Forall (fixed false (opt_std3 f)) n).
    { destruct DR as (_ & _ & DR). rewrite DR in ST |- *. apply join_Forall; [apply valid_fixed; apply lower_digit_valid; auto|].
      apply Forall_forall. intros p I. rewrite Forall_forall in TP. apply (pass_fixed U); [now apply TP|].
      destruct ST as [ST|ST]; [now left|right]. apply Forall_forall. intros c Hc. rewrite Forall_forall in ST. apply ST. eapply join_In; eauto. }
    destruct (fixed_map _ _ _ FN) as (M1 & M2).
    assert (ZN : zlen n < 255).
    { assert (JZ : Forall2 shorter ds rs).
      { eapply Forall2_impl_in; [exact FU|]. intros d p I HP. unfold shorter. clear G TP.
        assert (LD : zlen d < two64 /\ bytes d).
        { apply dotted_iff in D. rewrite <- D in I. split; [apply split_zlen in I; lia|]. apply plain_bytes.
          pose proof (plain_split r CS LR) as Q. rewrite Forall_forall in Q. now apply Q. }
        destruct LD as (LD & BD). destruct HP as [t l At F1 F2 F3 F4 F5|l N1 U1 _].
        - assert (LT : zlen t < zlen d) by (destruct At as (x & y & -> & _); rewrite !zlen_cons; lia).
          assert (D9 : puny_decode t 63 63 = Ok l) by (apply decode_iff; auto; lia).
          pose proof (decode_safe t 63 63 ltac:(lia) ltac:(lia) ltac:(lia)) as X. rewrite D9 in X. lia.
        - apply utf8_len in U1. lia. }
      apply join_zlen in JZ. destruct DR as (_ & _ & DR). rewrite <- DR, <- D3 in JZ. lia. }
    apply (prep_tr46 U (eff f) b b n n); [now rewrite eff_no_tr46|]. constructor; rewrite ?eff_transitional, ?eff_std3, ?NT, ?M1; auto.
    + destruct DR as (DR1 & _ & ->). apply nfc_join; auto. eapply Forall_impl; [|exact TP]. intros p (T & _). apply T.
    + rewrite SN. apply Forall_forall. intros p I. rewrite Forall_forall in TP. destruct (TP p I) as (T & NX). apply chk_plain; [exact NX|].
      apply tr46_pass_iff; [|rewrite eff_transitional, eff_std3, NT; exact T].
      apply Forall_forall. intros c Hc. unfold u32_string in UN. rewrite Forall_forall in UN.
      assert (In c n). { rewrite <- SN in I. destruct DR as (_ & _ & ->). rewrite SN in I. eapply join_In; eauto. } specialize (UN c H). lia.
    + exact (utf8_scalar _ _ UB).
    + intros I. unfold u32_string in UN. rewrite Forall_forall in UN. apply UN in I. lia.
    + lia.
  - clear - K R CV NU' FU US. rewrite <- eff_no_roundtrip in R. revert rs US FU. generalize dependent (split_dots b).
    induction CV as [|s8 d ss dd HC CV IH]; intros bs rs US FU; inversion FU; subst; inversion US; subst; constructor.
    + inversion NU'; subst. eapply label_back; eauto.
    + inversion NU'; subst. eapply IH; eauto.
  - now rewrite <- D3.
Qed.

(** ** ToUnicode twice *)
Lemma unicode_stable : forall s r b, c_string s -> zlen s < two64 -> unicode s = Ok r -> utf8 r b ->
  (forall rs, dotted rs r -> Forall (fun l => ~ exists t, ace_label l t) rs) -> unicode b = Ok r.
Proof.
  intros s r b C L H UB NA. pose proof (unicode_u32 s r C L H) as UN. apply unicode_iff in H; auto. destruct H as (ls & rs & D & F & DR & ZR).
  specialize (NA rs DR). assert (NB : c_string b).
  { pose proof (utf8_bytes _ _ UB) as BB. apply Forall_forall. intros x I. assert (x <> 0).
    { intros ->. apply (utf8_In r b 0 UB) in I; [|lia]. unfold u32_string in UN. rewrite Forall_forall in UN. apply UN in I. lia. }
    unfold bytes in BB. rewrite Forall_forall in BB. specialize (BB x I). lia. }
  pose proof (utf8_split _ _ UB) as US. assert (SR : split_dots r = rs) by now apply dotted_iff. rewrite SR in US.
  pose proof DR as (_ & _ & DR3). rewrite DR3. apply (unicode_intro b (split_dots b)); auto.
  - pose proof (utf8_len _ _ UB). unfold two64. lia.
  - now apply dotted_iff.
  - assert (Z63 : Forall (fun l : list Z => zlen l <= 63) rs).
    { eapply Forall2_right; [exact F|]. intros x l _ [t l' _ _ _ _ _ Hz|l' _ _ Hz]; exact Hz. }
    clear - US NA Z63. induction US as [|l s8 ls ss HU US IH]; [constructor|]. inversion NA; subst. inversion Z63; subst. constructor; auto.
    apply uo_plain; auto. intros (t & A). apply H1. eapply utf8_ace; eauto.
  - now rewrite <- DR3.
Qed.
