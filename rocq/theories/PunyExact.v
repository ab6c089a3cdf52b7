(** The encoder computes RFC 3492, for any ASCII characters and in both
    directions. *)
From Verif Require Import Base Puny SpecPuny PunyBase PunyRT PunyDec PunyInv PunyRfc PunyTop PunyComplete SpecUtf8 SpecLookup SpecNfc SpecLabel SpecToAscii LookupProofs.

Lemma D_encode : forall bs tail mo cap L emo ecap,
  0 <= mo -> mo < maxint -> mo <= cap -> Forall (fun c => 0 <= c < 128) bs -> zlen bs <= mo ->
  D cap mo tail bs initial_n 0 initial_bias = Ok L ->
  zlen bs + zlen (deli bs) + zlen tail <= emo -> emo < two64 -> emo <= ecap ->
  puny_encode L emo ecap = Ok (bs ++ deli bs ++ map redigit tail).
Proof.
  intros bs tail mo cap L emo ecap Hmo0 Hmo Hcap LB A4 A5 ZS Hemo2 Hecap.
  assert (Hbias : bias_ok initial_bias) by (split; vm_compute; discriminate).
  assert (DI : dinv bs initial_n 0).
  { split; [pose proof (zlen_nonneg _ bs); lia|]. cbn [Z.to_nat firstn skipn]. split; [constructor|].
    eapply Forall_impl; [|exact LB]. cbv beta. intros c Hc. unfold initial_n. lia. }
  pose proof (zlen_nonneg _ bs) as ZB.
  pose proof (D_safe (length tail) cap mo tail bs initial_n 0 initial_bias ltac:(lia) Hbias ltac:(lia)
    ltac:(unfold initial_n; lia) A4 ltac:(lia) Hcap ltac:(lia)) as SF.
  rewrite A5 in SF. destruct SF as (F1 & F2 & F3 & F4 & F5 & F6 & F7).
  assert (HL : Forall cp_ok L).
  { eapply Forall_impl; [|exact F3]. cbv beta. intros c [Hc|[_ Hc]]; [|auto].
    rewrite Forall_forall in LB. apply LB in Hc. unfold cp_ok. lia. }
  destruct (D_cut (length tail) cap mo tail bs initial_n 0 initial_bias L ltac:(lia) Hbias
    ltac:(unfold initial_n; lia) DI A4 ltac:(lia) Hcap A5) as (pre & l & C1 & C2 & C3).
  cbn [Z.to_nat firstn skipn] in C2, C3.
  assert (FB : filter (lt_n initial_n) L = bs).
  { rewrite C1, filter_app. rewrite C3.
    replace (filter (lt_n initial_n) pre) with (@nil Z); [reflexivity|].
    symmetry. apply filter_none. apply Forall_forall. intros x Hx.
    destruct (lt_n initial_n x) eqn:E; [|reflexivity]. exfalso.
    assert (HI : In x (filter (le_n initial_n) pre)).
    { apply filter_In. split; [auto|]. apply le_lt_n. auto. }
    rewrite C2 in HI. destruct HI. }
  pose proof (zlen_nonneg _ tail) as ZT.
  unfold puny_encode. destruct (maxint <? zlen L) eqn:E; zb; [lia|].
  assert (FB' : filter basicb L = bs) by exact FB.
  rewrite enc_basic_ok; auto.
  2:{ rewrite FB', zlen_nil. destruct bs; [auto|]. right. cbn [deli] in ZS. rewrite (zlen_cons _ delimiter), zlen_nil in ZS. lia. }
  cbn [bind app]. rewrite FB'. pose proof (zlen_filter basicb L) as ZF. rewrite FB' in ZF.
  rewrite (u32_id (zlen bs)) by (unfold two32, maxint in *; lia).
  assert (P : (if 0 <? zlen bs then put ecap bs delimiter else Ok bs) = Ok (bs ++ deli bs)).
  { destruct bs as [|x bs'] eqn:EB.
    - reflexivity.
    - destruct (0 <? zlen (x :: bs')) eqn:E2; zb; [|rewrite zlen_cons in E2; pose proof (zlen_nonneg _ bs'); lia].
      unfold put. cbn [deli] in *. rewrite (zlen_cons _ delimiter), zlen_nil in ZS.
      destruct (_ <? ecap) eqn:E3; zb; [reflexivity|lia]. }
  rewrite P. cbn [bind].
  assert (I : inv L (zlen bs) initial_n [] L 0 initial_bias (zlen bs) (filter (lt_n initial_n) L) initial_n 0).
  { rewrite FB. constructor.
    - reflexivity.
    - unfold vis. cbn [filter app]. auto.
    - reflexivity.
    - auto.
    - change (zlen (filter (le_n initial_n) [])) with 0. lia.
    - split; vm_compute; discriminate.
    - unfold initial_n. lia.
    - lia.
    - tauto.
    - lia. }
  rewrite (enc_main_dec (S (length L)) ecap emo cap mo L (zlen bs) initial_n
    (mkest 0 (bs ++ deli bs) initial_bias (zlen bs)) initial_n 0 tail);
    auto; try (unfold initial_n; lia); try (rewrite FB; auto).
  - cbn [e_out]. rewrite <- app_assoc. reflexivity.
  - cbn [e_out]. rewrite zlen_app. lia.
  - unfold zlen at 1. lia.
Qed.

Lemma ascii_part_ascii : forall p, Forall (fun c => 0 <= c) p -> Forall (fun c => 0 <= c < 128) (ascii_part p).
Proof.
  intros p H. apply Forall_forall. intros c Hc. apply filter_In in Hc. destruct Hc as [Hc1 Hc2]. zb.
  rewrite Forall_forall in H. apply H in Hc1. lia.
Qed.
Lemma lod_ldhu : forall ds, Forall lower_or_digit ds -> Forall (fun c => ldhu c /\ c <> 45 /\ c <> 95) ds.
Proof. intros ds H. eapply Forall_impl; [|exact H]. cbv beta. unfold lower_or_digit, ldhu. intros c Hc. lia. Qed.
Lemma lod_no45 : forall ds, Forall lower_or_digit ds -> ~ In 45 ds.
Proof. intros ds H X. rewrite Forall_forall in H. apply H in X. unfold lower_or_digit in X. lia. Qed.
Lemma lod_redigit : forall ds, Forall lower_or_digit ds -> map redigit ds = ds.
Proof.
  intros ds H. rewrite <- (map_id ds) at 2. apply map_ext_in. intros c Hc. rewrite Forall_forall in H. apply H in Hc.
  unfold lower_or_digit in Hc. rewrite redigit_ldhu by (unfold ldhu; lia).
  destruct ((65 <=? c) && (c <=? 90)) eqn:E1; zb; [lia|]. destruct (c =? 95) eqn:E2; zb; lia.
Qed.
Lemma lod_canon : forall ds, Forall lower_or_digit ds -> map canon_char ds = ds.
Proof.
  intros ds H. rewrite <- (map_id ds) at 2. apply map_ext_in. intros c Hc. rewrite Forall_forall in H. apply H in Hc.
  unfold lower_or_digit in Hc. unfold canon_char.
  destruct ((65 <=? c) && (c <=? 90)) eqn:E1; zb; [lia|]. destruct (c =? 95) eqn:E2; zb; lia.
Qed.
Lemma deli_eq : forall bs, (if zlen bs =? 0 then [] else [45]) = deli bs.
Proof.
  intros [|x bs]; [reflexivity|]. rewrite zlen_cons. pose proof (zlen_nonneg _ bs).
  destruct (1 + zlen bs =? 0) eqn:E; zb; [lia|reflexivity].
Qed.

(** Either form of an RFC 3492 string, taken apart. *)
Lemma rfc_parts : forall bs ds L, ~ In 45 ds -> rfc_decodes (bs ++ deli bs ++ ds) L -> rfc_steps bs 128 0 72 ds L.
Proof.
  intros bs ds L N H. destruct bs as [|x bs].
  - cbn [deli app] in H. inversion H as [s L0 N0 S E1 E2|b s L0 NE N0 S E1 E2]; subst; [exact S|].
    exfalso. apply N. apply in_or_app. right. left. reflexivity.
  - change ([delimiter] ++ ds) with (45 :: ds) in H. cbn [deli] in H. change ([delimiter] ++ ds) with (45 :: ds) in H.
    inversion H as [s L0 N0 S E1 E2|b s L0 NE N0 S E1 E2]; subst.
    + exfalso. apply N0. apply in_or_app. right. left. reflexivity.
    + change (b ++ 45 :: s = (x :: bs) ++ 45 :: ds) in E1. apply app45_inj in E1; auto. destruct E1 as [-> ->]. exact S.
Qed.

Lemma steps_len : forall o n i bias s L, rfc_steps o n i bias s L -> zlen L <= zlen o + zlen s.
Proof.
  induction 1 as [|o n i bias s rest q bias' a b L n' i' H1 H2 H3 H4 H5 H6 H7 IH].
  - rewrite zlen_nil. lia.
  - rewrite H4, zlen_app. rewrite zlen_app, zlen_cons in IH. rewrite zlen_app.
    apply rfc_varint_ne in H1. destruct s as [|c s]; [congruence|]. rewrite zlen_cons. pose proof (zlen_nonneg _ s). lia.
Qed.

Lemma encode_iff : forall L mo cap s, u32_list L -> 0 <= mo <= 109 -> mo <= cap ->
  (puny_encode L mo cap = Ok s <-> Forall permitted L /\ rfc_encodes L s /\ zlen s <= mo).
Proof.
  intros L mo cap s HL Hmo Hcap. split.
  - intros H. pose proof (puny_encode_len _ _ _ _ H) as ZL.
    pose proof (encode_shape L mo cap HL ltac:(unfold two64; lia) Hcap) as SH. rewrite H in SH.
    destruct SH as (S1 & S2 & SD). split; [exact S2|]. split; [|exact S1]. split; [exact SD|].
    pose proof (puny_encode_spec L mo cap HL ltac:(unfold two64; lia) Hcap) as S. rewrite H in S.
    destruct S as (ds & A1 & A2 & A3 & A4 & A5 & nd & id & bias & SIM). cbv zeta in A2.
    set (bs := filter basicb L) in *. fold (deli bs) in A2.
    assert (DG : Forall lower_or_digit (map encode_digit ds)).
    { clear - A3. induction A3; cbn [map]; constructor; auto. pose proof (encode_digit_range x H) as E. exact E. }
    destruct (SIM (zlen L) (zlen L) [] ltac:(lia) ltac:(lia)) as [SS|[SS _]]; [|unfold small in SS; lia].
    rewrite app_nil_r in SS. change (D (zlen L) (zlen L) [] L nd id bias) with (Ok L : out (list Z)) in SS.
    pose proof (zlen_nonneg _ bs) as ZB. pose proof (zlen_filter basicb L) as ZF. fold bs in ZF.
    assert (R : rfc_steps bs 128 0 72 (map encode_digit ds) L).
    { apply (D_rfc (length (map encode_digit ds)) (zlen L) (zlen L)); auto; try (unfold maxint; lia).
      - exact bias0.
      - now apply lod_ldhu. }
    rewrite A2. clearbody bs. destruct bs as [|x bs]; cbn [deli].
    + cbn [app]. apply rfc_plain; auto using lod_no45.
    + change ([delimiter] ++ ?y) with (45 :: y). apply (rfc_delim (x :: bs)); auto using lod_no45. discriminate.
  - intros (HP & ((ds & F & E) & R) & Z). rewrite deli_eq in E. set (bs := ascii_part L) in *. rewrite E in R.
    apply rfc_parts in R; [|now apply lod_no45].
    assert (ZE : zlen s = zlen bs + zlen (deli bs) + zlen ds) by (rewrite E, !zlen_app; lia).
    pose proof (steps_len _ _ _ _ _ _ R) as ZS. pose proof (zlen_nonneg _ (deli bs)) as ZD.
    pose proof (zlen_nonneg _ L) as ZL0. pose proof (zlen_nonneg _ bs) as ZB.
    assert (ZL : zlen bs <= zlen L) by (apply rfc_steps_grow in R; tauto).
    assert (HD : D (zlen L) (zlen L) ds bs initial_n 0 initial_bias = Ok L).
    { apply (steps_D bs 128 0 72 ds L R); auto; try lia.
      - now rewrite lod_canon.
      - exact bias0. }
    rewrite E, <- (lod_redigit ds F) at 1.
    apply (D_encode bs ds (zlen L) (zlen L)); auto; try (unfold maxint, two64; lia).
    apply ascii_part_ascii. eapply Forall_impl; [|exact HL]. cbv beta. lia.
Qed.
