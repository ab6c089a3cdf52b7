(** Proofs about registration. *)
From Verif Require Import Base PunyBase PunyRT PunyInv Uenv DataTypes DataCsv SpecUtf8 SpecPuny SpecTables SpecLabel SpecNfc SpecLookup SpecRegister SpecUnicode
  TablesProofs Utf8 Utf8Proofs Idna Puny PunyTop PunyComplete Lookup LabelProofs NfcProofs MapProofs LookupProofs LookupTr46 LookupIdem
  Api SpecApi DecodeProofs NonZero ApiProofs Register.

Lemma lower_ldh_canon_char : forall c, lower_ldh c -> canon_char c = c.
Proof.
  intros c H. unfold canon_char, lower_ldh in *. destruct ((65 <=? c) && (c <=? 90)) eqn:E; zb; [lia|]. destruct (c =? 95) eqn:E2; zb; lia.
Qed.
Lemma lower_ldh_canon : forall s, Forall lower_ldh s -> canon s = s.
Proof.
  induction 1 as [|c s H F IH]; [reflexivity|]. cbn [canon]. destruct (existsb _ _).
  - now rewrite IH.
  - clear IH. cbn [map]. rewrite lower_ldh_canon_char by auto. f_equal. clear H. induction F as [|x s H F IH]; [reflexivity|].
    cbn [map]. rewrite lower_ldh_canon_char by auto. now rewrite IH.
Qed.
Lemma lower_ldh_ldhu : forall s, Forall lower_ldh s -> Forall ldh_or_underscore s.
Proof. intros s. apply Forall_impl. unfold lower_ldh, ldh_or_underscore. lia. Qed.
Lemma rfc_steps_len : forall o n i bias s L, rfc_steps o n i bias s L -> zlen L <= zlen o + zlen s.
Proof.
  induction 1 as [o n i bias|o n i bias s rest q bias' a b L n' i' V _ _ EA _ _ _ IH].
  - rewrite zlen_nil. lia.
  - apply rfc_varint_ne in V. subst o. rewrite !zlen_app, zlen_cons in *. destruct s as [|x s]; [congruence|]. rewrite zlen_cons. pose proof (zlen_nonneg _ s). lia.
Qed.
Lemma rfc_decodes_len : forall s L, rfc_decodes s L -> zlen L <= zlen s.
Proof.
  intros s L [s' L' _ H|bs s' L' _ _ H]; apply rfc_steps_len in H; rewrite ?zlen_nil, ?zlen_app, ?zlen_cons in *; lia.
Qed.
Lemma scalar_permitted : forall l, Forall scalar l -> Forall permitted l.
Proof. intros l. apply Forall_impl. unfold scalar, permitted. lia. Qed.

Definition ace (t : list Z) : list Z := 120 :: 110 :: 45 :: 45 :: t.
Lemma zlen_ace : forall t, zlen (ace t) = 4 + zlen t.
Proof. intros. unfold ace. rewrite !zlen_cons. lia. Qed.

(** Encoding makes the A-label. *)
Lemma enc_a_label : forall l e, Forall scalar l -> Forall (fun c => c < 128 -> lower_ldh c) l -> Exists (fun c => 128 <= c) l ->
  (puny_encode l 59 60 = Ok e <-> a_label l (ace e)).
Proof.
  intros l e S A X. pose proof (scalar_u32 _ S) as U. split.
  - intros E. pose proof (encode_shape l 59 60 U ltac:(unfold two64; lia) ltac:(lia)) as SH. rewrite E in SH. destruct SH as (LE & _ & ds & DS & Es).
    split; [exact S|]. split; [exact X|]. exists e. split; [reflexivity|].
    assert (LW : Forall lower_ldh e).
    { rewrite Es. apply Forall_app. split; [|apply Forall_app; split].
      - apply Forall_forall. intros c I. unfold ascii_part in I. apply filter_In in I. destruct I as (I & Lc). apply Z.ltb_lt in Lc.
        rewrite Forall_forall in A. auto.
      - destruct (_ =? 0); [constructor|]. constructor; [|constructor]. unfold lower_ldh. lia.
      - revert DS. apply Forall_impl. unfold lower_or_digit, lower_ldh. lia. }
    split; [exact LW|]. split; [rewrite zlen_ace; lia|].
    pose proof (puny_encode_len _ _ _ _ E) as LL.
    assert (A' : Forall (fun c => c < 128 -> ldh_or_underscore c) l).
    { revert A. apply Forall_impl. intros c H L. specialize (H L). unfold lower_ldh, ldh_or_underscore in *. lia. }
    destruct (encode_decode l 59 60 e 63 63 U ltac:(unfold two64; lia) ltac:(lia) E A' X ltac:(lia) ltac:(lia)) as [D|(D & _)]; [|lia].
    rewrite <- (lower_ldh_canon e LW). apply (D_canon_rfc e 63 63 l); auto; try lia. unfold two64; lia.
  - intros (_ & _ & t & E & LW & LT & R). injection E as <-. rewrite zlen_ace in LT.
    pose proof (rfc_decodes_len _ _ R) as LL. rewrite <- (lower_ldh_canon e LW) in R.
    assert (D : puny_decode e 63 63 = Ok l).
    { apply decode_complete; auto using lower_ldh_ldhu, scalar_permitted; try lia. unfold two64; lia. }
    rewrite <- (lower_ldh_canon e LW). apply (decode_encode e 63 63); auto; try lia; unfold two64; lia.
Qed.
(** Decoding takes it apart again. *)
Lemma dec_a_label : forall t l mo cap, 63 <= mo < 4294967295 -> mo <= cap -> a_label l (ace t) -> puny_decode t mo cap = Ok l.
Proof.
  intros t l mo cap M C (S & X & t' & E & LW & LT & R). injection E as <-. rewrite zlen_ace in LT.
  pose proof (rfc_decodes_len _ _ R) as LL. rewrite <- (lower_ldh_canon t LW) in R.
  apply decode_complete; auto using lower_ldh_ldhu, scalar_permitted; try lia. unfold two64; lia.
Qed.

(** ** The tests *)
Definition ascii_test : bool :=
  forallb (fun c => match csv_property c with DISALLOWED | UNASSIGNED => true | _ => ((97 <=? c) && (c <=? 122)) || ((48 <=? c) && (c <=? 57)) || (c =? 45) end)
    (map Z.of_nat (seq 0 128)).
Lemma ascii_tested : ascii_test = true. Proof. vm_compute. reflexivity. Qed.
Lemma ascii_pvalid : forall c, 0 <= c < 128 -> csv_property c <> DISALLOWED -> csv_property c <> UNASSIGNED -> lower_ldh c.
Proof.
  intros c R N1 N2. pose proof ascii_tested as T. unfold ascii_test in T. rewrite forallb_forall in T. specialize (T c).
  assert (I : In c (map Z.of_nat (seq 0 128))). { apply in_map_iff. exists (Z.to_nat c). split; [lia|]. apply in_seq. lia. }
  specialize (T I). unfold lower_ldh.
  destruct (csv_property c); try congruence; rewrite !orb_true_iff, !andb_true_iff, !Z.leb_le, Z.eqb_eq in T; lia.
Qed.
Lemma scalar_nonneg : forall l, Forall scalar l -> Forall (fun c => 0 <= c) l.
Proof. intros l. apply Forall_impl. unfold scalar. lia. Qed.
Lemma register_tests : forall U l, Forall scalar l -> (label_test U REGISTER_TESTS l = Ok tt <-> registrable U l).
Proof.
  intros U l S. rewrite label_test_ok_iff by now apply scalar_nonneg. unfold label_tests_spec. cbv zeta.
  change REGISTER_TESTS with 3679. 
  split.
  - intros F. repeat match goal with H : Forall passes (_ :: _) |- _ => let P := fresh "P" in inversion H as [|? ? P ?]; clear H; subst end.
    unfold passes in *. constructor; match goal with H : ?b = true -> ?P |- ?P => exact (H eq_refl) end.
  - intros [R1 R2 R3 R4 R5 R6 R7 R8 R9].
    repeat (apply Forall_cons; [unfold passes; intros T; first [assumption|discriminate T|unfold ok_normalises, ok_nfc in *; congruence]|]). constructor.
Qed.
Lemma registrable_ascii : forall U l, Forall scalar l -> registrable U l -> Forall (fun c => c < 128 -> lower_ldh c) l.
Proof.
  intros U l S R. pose proof (reg_disallowed _ _ R) as D. pose proof (reg_unassigned _ _ R) as N. unfold ok_disallowed, ok_no in *.
  rewrite Forall_forall in *. intros c I L. specialize (D c I). specialize (N c I). specialize (S c I). unfold scalar in S.
  apply ascii_pvalid; [lia| |exact N]. destruct D as [D|(D & _)]; [exact D|discriminate].
Qed.
Lemma registrable_no0 : forall U l, Forall scalar l -> registrable U l -> ~ In 0 l.
Proof.
  intros U l S R I. pose proof (registrable_ascii U l S R) as F. rewrite Forall_forall in F. specialize (F 0 I ltac:(lia)). unfold lower_ldh in F. lia.
Qed.

(** ** U-label alone *)
Lemma lower_ldh_no0 : forall t, Forall lower_ldh t -> upto0 (ace t) = ace t.
Proof.
  intros t F. apply upto0_id. unfold ace. cbn [In]. intros [X|[X|[X|[X|X]]]]; try lia. rewrite Forall_forall in F. apply F in X. unfold lower_ldh in X. lia.
Qed.
Lemma nonascii_utf8 : forall l u, utf8 l u -> bytes u -> Forall scalar l -> Forall (fun c => c < 128) l -> Forall (fun b => b < 128) u.
Proof.
  intros l u H B S F. assert (ascii l) as A. { unfold ascii. rewrite Forall_forall in *. intros x I. specialize (S x I). specialize (F x I). unfold scalar in S. lia. }
  apply u32_to_u8_iff in H. rewrite u32_to_u8_ascii in H by auto. injection H as <-. exact F.
Qed.
Lemma not_all_ascii : forall l, ~ Forall (fun c => c < 128) l -> Exists (fun c => 128 <= c) l.
Proof.
  intros l H. destruct (Exists_dec (fun c => 128 <= c) l) as [E|E]; [intros c; apply Z_le_dec|exact E|].
  exfalso. apply H. apply Forall_forall. intros c I. destruct (Z_lt_dec c 128); [auto|]. exfalso. apply E. apply Exists_exists. exists c. split; [auto|lia].
Qed.
Lemma has_nfc : forall f, has f IDN2_NFC_INPUT = opt_nfc f.
Proof. intros f. exact (has_bit f 0 ltac:(lia)). Qed.

Lemma reg_u_sound : forall U u f a, nfc_ok U -> (opt_nfc f = true -> nfc_no_ldh U) -> c_string u -> reg_ulabel U u f = Ok a ->
  (ascii_string u /\ zlen u <= 63 /\ a = u) \/
  (~ ascii_string u /\ exists l m, utf8 l u /\ reg_normal U f l m /\ registrable U m /\ a_label m a).
Proof.
  intros U u f a K NL C H. unfold reg_ulabel in H. destruct (ascii_p u) eqn:A.
  - left. apply ascii_p_iff in A. destruct (LABEL_MAX <? zlen u) eqn:L; [discriminate|]. unfold LABEL_MAX in L. zb. injection H as <-.
    split; [|auto]. unfold ascii_string, c_string in *. rewrite Forall_forall in *. intros x I. specialize (C x I). specialize (A x I). lia.
  - right. assert (NA : ~ Forall (fun b => b < 128) u) by (intros F; apply ascii_p_iff in F; congruence).
    split. { intros F. apply NA. revert F. apply Forall_impl. lia. }
    destruct (u8_to_u32_nfc U u _) as [m|rc| |] eqn:EN; try discriminate. cbn [bind] in H.
    destruct (label_test U REGISTER_TESTS m) as [[]|rc| |] eqn:ET; try discriminate. cbn [bind] in H.
    destruct (puny_encode m _ _) as [e|rc| |] eqn:EE; try discriminate. cbn [bind] in H.
    destruct (_ <=? zlen e); [discriminate|]. assert (EH : upto0 (ace e) = a) by (injection H; auto). clear H.
    apply u8_nfc_ok in EN. destruct EN as (l & EU & EN). assert (B : bytes u) by now apply c_string_bytes.
    apply u8_to_u32_iff in EU; auto. pose proof (utf8_scalar _ _ EU) as SL. pose proof (norm_scalar _ _ _ _ K SL EN) as SM.
    apply register_tests in ET; auto. exists l, m. split; [exact EU|].
    assert (RN : reg_normal U f l m).
    { rewrite has_nfc in EN. unfold reg_normal. destruct EN as [|m Ef Em].
      - destruct (opt_nfc f); [exact (reg_nfc _ _ ET)|reflexivity].
      - rewrite Ef. exact Em. }
    split; [exact RN|]. split; [exact ET|]. pose proof (registrable_ascii U m SM ET) as AM.
    assert (X : Exists (fun c => 128 <= c) m).
    { apply not_all_ascii. intros F. apply NA. assert (l = m) as ->; [|now apply (nonascii_utf8 m u)].
      unfold reg_normal in RN. destruct (opt_nfc f); [|auto]. apply (NL eq_refl l m RN). rewrite Forall_forall in *. auto. }
    apply (enc_a_label m e SM AM X) in EE. destruct EE as (E1 & E2 & t & E3 & E4 & E5). injection E3 as <-.
    rewrite lower_ldh_no0 in EH by auto. subst a. split; [exact SM|]. split; [exact X|]. exists e. auto.
Qed.
Lemma reg_u_complete : forall U u f l m a, nfc_ok U -> c_string u -> ~ ascii_string u -> utf8 l u -> reg_normal U f l m ->
  (opt_nfc f = true -> l = m \/ (qc_sound U /\ Forall (fun c => ~ supplementary c) l)) ->
  registrable U m -> a_label m a -> reg_ulabel U u f = Ok a.
Proof.
  intros U u f l m a K C NA EU RN Q R AL. pose proof AL as (SM & X & t & -> & LW & LT & RD). fold (ace t) in AL, LT |- *.
  unfold reg_ulabel. destruct (ascii_p u) eqn:A.
  { exfalso. apply NA. apply ascii_p_iff in A. unfold ascii_string, c_string in *. rewrite Forall_forall in *. intros x I. specialize (C x I). specialize (A x I). lia. }
  assert (B : bytes u) by now apply c_string_bytes. pose proof EU as EU'. apply u8_to_u32_iff in EU'; auto.
  assert (EN : u8_to_u32_nfc U u (has f IDN2_NFC_INPUT) = Ok m).
  { rewrite has_nfc. unfold reg_normal in RN. destruct (opt_nfc f).
    - destruct (Q eq_refl) as [->|(QS & NS)]; [now apply u8_nfc_id|].
      rewrite nfc_normalises; auto; [now rewrite EU'; cbn [conv bind]; rewrite RN|]. intros p Ep. congruence.
    - subst m. unfold u8_to_u32_nfc. now rewrite EU'. }
  rewrite EN. cbn [bind]. assert (label_test U REGISTER_TESTS m = Ok tt) as -> by now apply register_tests. cbn [bind].
  change (LABEL_MAX - 4) with 59. change (LABEL_MAX - 3) with 60.
  rewrite (proj2 (enc_a_label m t SM (registrable_ascii U m SM R) X) AL). cbn [bind].
  rewrite zlen_ace in LT. destruct (60 <=? zlen t) eqn:E; zb; [lia|]. change (ace_prefix ++ t) with (ace t). now rewrite lower_ldh_no0.
Qed.
Lemma reg_u_ascii : forall U u f, ascii_string u -> reg_ulabel U u f = if zlen u <=? 63 then Ok u else Fail IDN2_TOO_BIG_LABEL.
Proof.
  intros U u f A. unfold reg_ulabel. assert (ascii_p u = true) as ->. { apply ascii_p_iff. revert A. apply Forall_impl. lia. }
  unfold LABEL_MAX. destruct (63 <? zlen u) eqn:E1; destruct (zlen u <=? 63) eqn:E2; zb; try lia; reflexivity.
Qed.
Lemma reg_u_codes : forall U u f, nfc_ok U -> c_string u ->
  match reg_ulabel U u f with Ok a => zlen a <= 63 | Fail rc => In rc register_errors | _ => False end.
Proof.
  intros U u f K C. unfold reg_ulabel. destruct (ascii_p u).
  - destruct (LABEL_MAX <? zlen u) eqn:E; unfold LABEL_MAX in E; zb; [|lia]. unfold register_errors. cbn [In]. auto.
  - pose proof (u8_nfc_safe U u (has f IDN2_NFC_INPUT)) as S. destruct (u8_to_u32_nfc U u _) as [m|rc| |] eqn:EN; try contradiction.
    2:{ cbn [bind]. unfold u8_to_u32_nfc in EN. destruct (u8_to_u32 u); cbn [conv bind] in EN; [|injection EN as <-; unfold register_errors; cbn [In]; tauto].
        destruct (has f _); [|discriminate]. destruct (isNFC_spec U l) as [(E & _)|(E & _)]; rewrite E in EN; cbn [bind] in EN; [discriminate|].
        cbn in EN. destruct (ue_nfc U l); cbn [conv] in EN; [discriminate|]. injection EN as <-. unfold register_errors; cbn [In]; tauto. }
    cbn [bind]. apply u8_nfc_ok in EN. destruct EN as (l & EU & EN). apply u8_to_u32_iff in EU; [|now apply c_string_bytes].
    pose proof (norm_scalar _ _ _ _ K (utf8_scalar _ _ EU) EN) as SM.
    pose proof (label_test_safe U REGISTER_TESTS m (scalar_nonneg _ SM)) as TS.
    destruct (label_test U REGISTER_TESTS m) as [[]|rc| |] eqn:ET; try contradiction; cbn [bind].
    2:{ apply label_test_fail_iff in ET; [|now apply scalar_nonneg]. unfold label_tests_spec in ET. cbv zeta in ET. change REGISTER_TESTS with 3679 in ET.
        unfold register_errors. cbn [In].
        repeat match goal with H : first_failure (_ :: _) _ |- _ => let S1 := fresh "S" in inversion H; clear H; subst; try tauto end;
        try match goal with H : first_failure [] _ |- _ => inversion H end; try match goal with H : _ = true |- _ => discriminate H end. }
    pose proof (encode_shape m 59 60 (scalar_u32 _ SM) ltac:(unfold two64; lia) ltac:(lia)) as E.
    change (LABEL_MAX - 4) with 59. change (LABEL_MAX - 3) with 60. destruct (puny_encode m 59 60) as [e|rc| |]; try contradiction; cbn [bind].
    + destruct E as (E & _). destruct (60 <=? zlen e) eqn:L; zb; [lia|]. pose proof (upto0_zlen (ace e)) as X. rewrite zlen_ace in X.
      change (ace_prefix ++ e) with (ace e). lia.
    + unfold register_errors. cbn [In]. destruct E as [->|[(-> & _)|(-> & _)]]; tauto.
Qed.

(** ** With an A-label *)
Lemma prefix_inv : forall a, list_eqb (firstn 4 a) ace_prefix = true -> a = ace (skipn 4 a).
Proof.
  intros a H. apply list_eqb_iff in H. unfold ace_prefix in H. destruct a as [|a1 [|a2 [|a3 [|a4 a]]]]; try discriminate.
  cbn [firstn] in H. injection H as -> -> -> ->. reflexivity.
Qed.
Lemma list_eqb_refl : forall a, list_eqb a a = true. Proof. intros. now apply list_eqb_iff. Qed.
Lemma decoded_utf8 : forall t mo cap l b, 0 <= mo < 4294967295 -> mo <= cap -> zlen t <= 59 -> puny_decode t mo cap = Ok l -> u32_to_u8 l = Some b ->
  Forall scalar l /\ upto0 b = b /\ c_string b /\ ~ ascii_string b /\ zlen b <= 236 /\ utf8 l b.
Proof.
  intros t mo cap l b M C L D B. pose proof (decode_safe t mo cap M C ltac:(unfold two64; lia)) as S. rewrite D in S.
  destruct S as (S1 & S2 & S3 & S4 & S5 & S6). pose proof (u32_to_u8_scalar _ _ B) as SC. pose proof (u32_to_u8_bytes _ _ B) as BB.
  apply u32_to_u8_iff in B. split; [exact SC|].
  assert (N0 : ~ In 0 b). { intros I. apply (utf8_In l b 0 B) in I; [|lia]. rewrite Forall_forall in S5. apply S5 in I; [|lia]. unfold ldh_or_underscore in I. lia. }
  split; [now apply upto0_id|]. split.
  { unfold c_string, bytes in *. rewrite Forall_forall in *. intros x I. specialize (BB x I). assert (x <> 0) by congruence. lia. }
  split.
  - intros A. assert (l = b) as ->. { apply (utf8_ascii_eq l b B). revert A. apply Forall_impl. lia. }
    apply Exists_exists in S6. destruct S6 as (x & I & X). unfold ascii_string in A. rewrite Forall_forall in A. apply A in I. lia.
  - split; [|exact B]. apply utf8_len in B. lia.
Qed.
Lemma reg_a_iff : forall U u a r, nfc_ok U -> c_string a ->
  (reg_alabel U u a = Ok r <-> r = a /\ exists l, a_label l a /\ registrable U l /\ (forall x, u = Some x -> utf8 l x)).
Proof.
  intros U u a r K C. unfold reg_alabel. change LABEL_MAX with 63. change DOMAIN_MAX with 255. split.
  - destruct (63 <? zlen a) eqn:L; zb; [discriminate|]. destruct (zlen a <=? 4) eqn:L4; zb; [discriminate|].
    destruct (list_eqb (firstn 4 a) ace_prefix) eqn:P; cbn [negb]; [|discriminate]. apply prefix_inv in P. set (t := skipn 4 a) in *.
    destruct (ascii_p a) eqn:A; cbn [negb]; [|discriminate]. assert (LT : zlen t <= 59) by (rewrite P, zlen_ace in L; lia).
    destruct (puny_decode t (63 * 4) (255 * 4)) as [l|rc| |] eqn:D; try discriminate. cbn [bind].
    destruct (u32_to_u8 l) as [b|] eqn:B; cbn [conv bind]; [|discriminate]. destruct (_ <=? zlen b); [discriminate|]. cbv zeta.
    destruct (decoded_utf8 t (63 * 4) (255 * 4) l b ltac:(lia) ltac:(lia) LT D B) as (SC & -> & CB & NA & LB & UB).
    intros H. assert (HU : forall x, u = Some x -> utf8 l x).
    { intros x ->. destruct (list_eqb x b) eqn:E; [|discriminate]. apply list_eqb_iff in E. rewrite E; exact UB. }
    destruct (match u with Some s => _ | None => _ end) as [[]|rc| |]; try discriminate. cbn [bind] in H.
    destruct (reg_ulabel U b 0) as [tmp|rc| |] eqn:RU; try discriminate. cbn [bind] in H. destruct (list_eqb a tmp) eqn:E; [|discriminate].
    apply list_eqb_iff in E. subst tmp. injection H as <-. split; [reflexivity|]. exists l.
    destruct (reg_u_sound U b 0 a K ltac:(discriminate) CB RU) as [(X & _)|(_ & l' & m & EU & RN & R & AL)]; [contradiction|].
    unfold reg_normal in RN. change (opt_nfc 0) with false in RN. cbv iota in RN. subst m.
    assert (l' = l) as ->. { apply u8_to_u32_iff in EU, UB; try now apply c_string_bytes. congruence. }
    auto.
  - intros (-> & l & AL & R & HU). pose proof AL as (SC & X & t & -> & LW & LT & RD). fold (ace t) in *.
    destruct (63 <? zlen (ace t)) eqn:L; zb; [lia|].
    pose proof (dec_a_label t l (63 * 4) (255 * 4) ltac:(lia) ltac:(lia) AL) as D.
    rewrite zlen_ace in *. pose proof (decode_safe t (63 * 4) (255 * 4) ltac:(lia) ltac:(lia) ltac:(unfold two64; lia)) as DS. rewrite D in DS.
    assert (0 < zlen t). { destruct DS as (_ & DS & NE & _). destruct l; [congruence|]. rewrite zlen_cons in DS. pose proof (zlen_nonneg _ l). lia. }
    destruct (4 + zlen t <=? 4) eqn:L4; zb; [lia|]. change (firstn 4 (ace t)) with ace_prefix. rewrite list_eqb_refl. cbn [negb].
    assert (ascii_p (ace t) = true) as ->. { apply ascii_p_iff. unfold ace. repeat (apply Forall_cons; [lia|]). revert LW. apply Forall_impl. unfold lower_ldh. lia. }
    cbn [negb]. change (skipn 4 (ace t)) with t. rewrite D. cbn [bind].
    destruct (u32_to_u8_total l SC) as (b & B). rewrite B. cbn [conv bind].
    destruct (decoded_utf8 t (63 * 4) (255 * 4) l b ltac:(lia) ltac:(lia) ltac:(lia) D B) as (_ & -> & CB & NA & LB & UB).
    destruct (255 + 1 <=? zlen b) eqn:LE; zb; [lia|]. cbv zeta.
    assert ((match u with Some s => if list_eqb s b then Ok tt else Fail IDN2_UALABEL_MISMATCH | None => Ok tt end) = Ok tt) as ->.
    { destruct u as [x|]; [|reflexivity]. assert (x = b) as -> by (apply (utf8_fun l); auto). now rewrite list_eqb_refl. }
    cbn [bind]. rewrite (reg_u_complete U b 0 l l (ace t) K CB NA UB); auto; [|reflexivity]. cbn [bind]. now rewrite list_eqb_refl.
Qed.
Lemma reg_a_mismatch : forall U x a l, a_label l a -> ~ utf8 l x -> reg_alabel U (Some x) a = Fail IDN2_UALABEL_MISMATCH.
Proof.
  intros U x a l AL N. pose proof AL as (SC & X & t & -> & LW & LT & RD). fold (ace t) in *. unfold reg_alabel. change LABEL_MAX with 63. change DOMAIN_MAX with 255.
  destruct (63 <? zlen (ace t)) eqn:L; zb; [lia|].
  pose proof (dec_a_label t l (63 * 4) (255 * 4) ltac:(lia) ltac:(lia) AL) as D.
  rewrite zlen_ace in *. pose proof (decode_safe t (63 * 4) (255 * 4) ltac:(lia) ltac:(lia) ltac:(unfold two64; lia)) as DS. rewrite D in DS.
  assert (0 < zlen t). { destruct DS as (_ & DS & NE & _). destruct l; [congruence|]. rewrite zlen_cons in DS. pose proof (zlen_nonneg _ l). lia. }
  destruct (4 + zlen t <=? 4) eqn:L4; zb; [lia|]. change (firstn 4 (ace t)) with ace_prefix. rewrite list_eqb_refl. cbn [negb].
  assert (ascii_p (ace t) = true) as ->. { apply ascii_p_iff. unfold ace. repeat (apply Forall_cons; [lia|]). revert LW. apply Forall_impl. unfold lower_ldh. lia. }
  cbn [negb]. change (skipn 4 (ace t)) with t. rewrite D. cbn [bind].
  destruct (u32_to_u8_total l SC) as (b & B). rewrite B. cbn [conv bind].
  destruct (decoded_utf8 t (63 * 4) (255 * 4) l b ltac:(lia) ltac:(lia) ltac:(lia) D B) as (_ & -> & CB & NA & LB & UB).
  destruct (255 + 1 <=? zlen b) eqn:LE; zb; [lia|]. cbv zeta. destruct (list_eqb x b) eqn:E; [|reflexivity].
  apply list_eqb_iff in E. subst. contradiction.
Qed.
Lemma reg_a_codes : forall U u a, nfc_ok U -> c_string a ->
  match reg_alabel U u a with Ok r => zlen r <= 63 | Fail rc => In rc register_errors | _ => False end.
Proof.
  intros U u a K C. unfold reg_alabel. change LABEL_MAX with 63. change DOMAIN_MAX with 255.
  destruct (63 <? zlen a) eqn:L; zb; [unfold register_errors; cbn [In]; tauto|]. destruct (zlen a <=? 4); [unfold register_errors; cbn [In]; tauto|].
  destruct (list_eqb (firstn 4 a) ace_prefix) eqn:P; cbn [negb]; [|unfold register_errors; cbn [In]; tauto]. apply prefix_inv in P. set (t := skipn 4 a) in *.
  destruct (ascii_p a) eqn:A; cbn [negb]; [|unfold register_errors; cbn [In]; tauto]. assert (LT : zlen t <= 59) by (rewrite P, zlen_ace in L; lia).
  pose proof (decode_safe t (63 * 4) (255 * 4) ltac:(lia) ltac:(lia) ltac:(unfold two64; lia)) as DS.
  destruct (puny_decode t (63 * 4) (255 * 4)) as [l|rc| |] eqn:D; cbn [bind]; try contradiction.
  2:{ unfold register_errors; cbn [In]. destruct DS as [->|[-> | ->]]; tauto. }
  destruct (u32_to_u8 l) as [b|] eqn:B; cbn [conv bind]; [|unfold register_errors; cbn [In]; tauto].
  destruct (decoded_utf8 t (63 * 4) (255 * 4) l b ltac:(lia) ltac:(lia) LT D B) as (SC & -> & CB & NA & LB & UB).
  destruct (255 + 1 <=? zlen b) eqn:LE; zb; [lia|]. cbv zeta.
  assert (G : match (let* tmp := reg_ulabel U b 0 in if list_eqb a tmp then Ok a else Fail IDN2_UALABEL_MISMATCH) with
              | Ok r => zlen r <= 63 | Fail rc => In rc register_errors | _ => False end).
  { pose proof (reg_u_codes U b 0 K CB) as R. destruct (reg_ulabel U b 0); try contradiction; cbn [bind]; [|exact R].
    destruct (list_eqb a _); [exact L|]. unfold register_errors; cbn [In]; tauto. }
  destruct u as [x|]; [|exact G]. destruct (list_eqb x b); [exact G|]. cbn [bind]. unfold register_errors; cbn [In]; tauto.
Qed.
