(** When label() of lookup.c fails, and with which code. *)
From Verif Require Import Base PunyBase PunyRT PunyInv PunyComplete PunyExact Uenv DataTypes DataTr46 SpecUtf8 SpecPuny SpecTables SpecBidi SpecContext SpecLabel SpecNfc
  SpecLookup SpecToAscii SpecRefusal Gentr46 Tr46Map Tr46Facts Utf8 Utf8Proofs Idna Puny PunyTop Lookup LabelProofs NfcProofs MapProofs LookupProofs LookupTr46
  LookupIdem LookupTop TablesProofs StableProofs BaseTop ApiProofs ToAsciiProofs.

Lemma bind_fail : forall A B (m : out A) (k : A -> out B) rc, bind m k = Fail rc <-> m = Fail rc \/ exists a, m = Ok a /\ k a = Fail rc.
Proof.
  intros A B [a|r| |] k rc; cbn [bind]; split; intros H.
  - right. eauto.
  - destruct H as [H|(b & E & H)]; [discriminate|]. injection E as <-. exact H.
  - left. congruence.
  - destruct H as [H|(b & E & _)]; [congruence|discriminate].
  - discriminate.
  - destruct H as [H|(b & E & _)]; discriminate.
  - discriminate.
  - destruct H as [H|(b & E & _)]; discriminate.
Qed.
Lemma nfc_conv_fail : forall U src nfc rc, u8_to_u32_nfc U src nfc = Fail rc <->
  (u8_to_u32 src = None /\ rc = IDN2_ENCODING_ERROR) \/
  (exists l, u8_to_u32 src = Some l /\ nfc = true /\ ~ qc_yes (ue_ccc U) 0 (visited false l) /\ ue_nfc U l = None /\ rc = IDN2_NFC).
Proof.
  intros U src nfc rc. unfold u8_to_u32_nfc. destruct (u8_to_u32 src) as [l|]; cbn [conv bind].
  2:{ split; [intros H; left; split; congruence|]. intros [(_ & ->)|(l & E & _)]; [reflexivity|discriminate]. }
  destruct nfc.
  - destruct (isNFC_spec U l) as [(-> & Q)|(-> & Q)]; cbn [bind].
    + change (1 =? 0) with false. cbv iota. split; [discriminate|]. intros [(E & _)|(l0 & E & _ & N & _)]; [discriminate|]. injection E as <-. contradiction.
    + change (0 =? 0) with true. cbv iota. split.
      * intros E. right. exists l. destruct (ue_nfc U l); [discriminate|]. cbn [conv] in E. repeat (split; [auto|]). congruence.
      * intros [(E & _)|(l0 & E & _ & _ & N & ->)]; [discriminate|]. injection E as <-. rewrite N. reflexivity.
  - split; [discriminate|]. intros [(E & _)|(l0 & _ & E & _)]; discriminate.
Qed.

Inductive tail_fx (U : uenv) (f : Z) (org : option (list Z)) (l : list Z) : Z -> Prop :=
| tx_nfc : opt_nfc f = true -> ~ qc_yes (ue_ccc U) 0 (visited false l) -> ue_nfc U l = None -> tail_fx U f org l IDN2_NFC
| tx_test : forall p rc, normal_form U (opt_nfc f) l p -> opt_transitional f = false -> label_test U (label_tests f) p = Fail rc -> tail_fx U f org l rc
| tx_enc : forall p rc, normal_form U (opt_nfc f) l p -> (opt_transitional f = false -> label_test U (label_tests f) p = Ok tt) ->
    puny_encode p 59 59 = Fail rc -> tail_fx U f org l rc
| tx_org : forall p enc o, normal_form U (opt_nfc f) l p -> (opt_transitional f = false -> label_test U (label_tests f) p = Ok tt) ->
    puny_encode p 59 59 = Ok enc -> org = Some o -> casecmp_eq o (ace enc) = false -> tail_fx U f org l IDN2_ALABEL_ROUNDTRIP_FAILED
| tx_rt : forall p enc, normal_form U (opt_nfc f) l p -> (opt_transitional f = false -> label_test U (label_tests f) p = Ok tt) ->
    puny_encode p 59 59 = Ok enc -> org = None -> opt_no_roundtrip f = false -> puny_decode enc 63 63 <> Ok p ->
    tail_fx U f org l IDN2_ALABEL_ROUNDTRIP_FAILED.

Lemma encoded_len : forall p enc, Forall scalar p -> puny_encode p 59 59 = Ok enc -> zlen enc < two64.
Proof.
  intros p enc S H. pose proof (encode_safe p 59 59 (scalar_u32 _ S) ltac:(unfold two64; lia) ltac:(lia)) as (_ & X). specialize (X enc H). unfold two64. lia.
Qed.
Lemma normal_scalar : forall U nfc l p, nfc_ok U -> Forall scalar l -> normal_form U nfc l p -> Forall scalar p.
Proof. intros U nfc l p K S H. apply (norm_scalar U nfc l p); auto. now apply normal_norm. Qed.

Lemma label_tail_fx : forall U src org f l rc, u8_to_u32 src = Some l -> Forall scalar l -> nfc_ok U ->
  (label_tail U src org 63 f = Fail rc <-> tail_fx U f org l rc).
Proof.
  intros U src org f l rc E S K. unfold label_tail. rewrite bind_fail, nfc_conv_fail, has_nfc. split.
  - intros [[(N & _)|(l0 & E0 & Nf & Q & N & ->)]|(p & Hp & H)]; [congruence| |].
    + rewrite E in E0. injection E0 as <-. now apply tx_nfc.
    + apply nfc_conv_iff in Hp. destruct Hp as (l0 & E0 & NF). rewrite E in E0. injection E0 as <-.
      rewrite bind_fail in H. destruct H as [H|(u & Ht & H)].
      * rewrite has_transitional in H. destruct (opt_transitional f) eqn:T; cbn [negb when] in H; [discriminate|]. now apply (tx_test U f org l p).
      * rewrite (unit_tt u), when_true, has_transitional in Ht.
        assert (Ht' : opt_transitional f = false -> label_test U (label_tests f) p = Ok tt) by (intros T; apply Ht; now rewrite T). clear Ht.
        change (63 <? 4) with false in H. cbv iota in H. change (63 - 4) with 59 in H. rewrite bind_fail in H. destruct H as [H|(enc & He & H)]; [now apply (tx_enc U f org l p)|].
        destruct org as [o|].
        -- change (ace_prefix ++ enc) with (ace enc) in H. destruct (casecmp_eq o _) eqn:C; [discriminate|]. injection H as <-. now apply (tx_org U f (Some o) l p enc o).
        -- rewrite has_no_roundtrip in H. destruct (opt_no_roundtrip f) eqn:R; cbn [negb] in H; [discriminate|]. change LABEL_MAX with 63 in H.
           destruct (puny_decode enc 63 63) as [q|q| |] eqn:D; try discriminate.
           ++ destruct (list_eqb p q) eqn:Q; [discriminate|]. injection H as <-. apply (tx_rt U f None l p enc); auto.
              intros X. assert (q = p) by congruence. subst q. assert (list_eqb p p = true) by now apply list_eqb_iff. congruence.
           ++ injection H as <-. apply (tx_rt U f None l p enc); auto. congruence.
  - assert (NC : forall p, normal_form U (opt_nfc f) l p -> u8_to_u32_nfc U src (opt_nfc f) = Ok p) by (intros p X; apply nfc_conv_iff; eauto).
    assert (WT : forall p, (opt_transitional f = false -> label_test U (label_tests f) p = Ok tt) -> when (negb (has f IDN2_TRANSITIONAL)) (label_test U (label_tests f) p) = Ok tt).
    { intros p X. apply when_true. rewrite has_transitional. intros T. apply X. now apply negb_true_iff. }
    intros [Nf Q N|p r NF T H|p r NF T H|p enc o NF T H EO C|p enc NF T H EO R D].
    + left. right. exists l. auto.
    + right. exists p. split; [now apply NC|]. apply bind_fail. left. rewrite has_transitional, T. exact H.
    + right. exists p. split; [now apply NC|]. rewrite (WT p T). cbn [bind]. change (63 <? 4) with false. cbv iota. change (63 - 4) with 59. rewrite H. reflexivity.
    + right. exists p. split; [now apply NC|]. rewrite (WT p T). cbn [bind]. change (63 <? 4) with false. cbv iota. change (63 - 4) with 59. rewrite H. cbn [bind].
      rewrite EO. change (ace_prefix ++ enc) with (ace enc). rewrite C. reflexivity.
    + right. exists p. split; [now apply NC|]. rewrite (WT p T). cbn [bind]. change (63 <? 4) with false. cbv iota. change (63 - 4) with 59. rewrite H. cbn [bind].
      rewrite EO, has_no_roundtrip, R. cbn [negb]. change LABEL_MAX with 63. pose proof (decode_safe enc 63 63 ltac:(lia) ltac:(lia) (encoded_len _ _ (normal_scalar _ _ _ _ K S NF) H)) as SF.
      destruct (puny_decode enc 63 63) as [q|q| |] eqn:ED; try contradiction; [|reflexivity].
      destruct (list_eqb p q) eqn:Q; [|reflexivity]. apply list_eqb_iff in Q. congruence.
Qed.

Inductive label_fx (U : uenv) (f : Z) (src : list Z) : Z -> Prop :=
| fx_long : all_ascii src -> (opt_no_roundtrip f = false -> ~ xn src) -> 63 < zlen src -> label_fx U f src IDN2_TOO_BIG_LABEL
| fx_decode : forall t rc, src = ace t -> all_ascii src -> opt_no_roundtrip f = false -> puny_decode t 63 63 = Fail rc -> label_fx U f src rc
| fx_surrogate : forall t l, src = ace t -> all_ascii src -> opt_no_roundtrip f = false -> puny_decode t 63 63 = Ok l -> ~ Forall scalar l ->
    label_fx U f src IDN2_ENCODING_ERROR
| fx_ace : forall t l rc, src = ace t -> all_ascii src -> opt_no_roundtrip f = false -> puny_decode t 63 63 = Ok l -> Forall scalar l ->
    tail_fx U f (Some src) l rc -> label_fx U f src rc
| fx_utf8 : ~ all_ascii src -> (forall l, ~ utf8 l src) -> label_fx U f src IDN2_ENCODING_ERROR
| fx_uni : forall l rc, ~ all_ascii src -> utf8 l src -> tail_fx U f None l rc -> label_fx U f src rc.

Lemma label_fx_iff : forall U f src rc, nfc_ok U -> plain_label src -> (label U src 63 f = Fail rc <-> label_fx U f src rc).
Proof.
  intros U f src rc K P. destruct (plain_bytes _ P) as (B & _). unfold label. split.
  - intros H. destruct (ascii_p src) eqn:A.
    + apply ascii_p_iff in A. rewrite has_no_roundtrip in H. destruct (negb (opt_no_roundtrip f) && has_ace_prefix src) eqn:X.
      * rewrite andb_true_iff, negb_true_iff, has_ace_iff in X. destruct X as (R & t & E). subst src. change LABEL_MAX with 63 in H.
        cbn [skipn] in H. apply bind_fail in H. destruct H as [H|(l & D & H)]; [now apply (fx_decode U f (ace t) t)|].
        destruct (u32_to_u8 l) as [s'|] eqn:E0; cbn [conv bind] in H.
        -- pose proof (u32_to_u8_scalar _ _ E0) as S. apply (label_tail_fx U s' _ f l rc (u32_u8_u32 _ _ E0) S K) in H. now apply (fx_ace U f (ace t) t l).
        -- injection H as <-. apply (fx_surrogate U f (ace t) t l); auto. intros S. destruct (u32_to_u8_total l S). congruence.
      * change LABEL_MAX with 63 in H. destruct (63 <? zlen src) eqn:L; [|discriminate].
        injection H as <-. apply Z.ltb_lt in L. apply fx_long; auto. intros R XN. rewrite R in X. cbn [negb andb] in X. apply has_ace_iff in XN. congruence.
    + assert (NA : ~ all_ascii src) by (intros X; apply ascii_p_iff in X; congruence). destruct (u8_to_u32 src) as [l|] eqn:E.
      * pose proof E as E'. apply u8_to_u32_iff in E'; auto. apply (label_tail_fx U src _ f l rc E (utf8_scalar _ _ E') K) in H. now apply (fx_uni U f src l).
      * unfold label_tail, u8_to_u32_nfc in H. rewrite E in H. cbn [conv bind] in H. injection H as <-. apply fx_utf8; auto.
        intros l X. apply u8_to_u32_iff in X; auto. congruence.
  - intros [A N L|t r E A R D|t l E A R D S|t l r E A R D S H|A N|l r A HU H].
    + assert (ascii_p src = true) as -> by now apply ascii_p_iff. rewrite has_no_roundtrip. change LABEL_MAX with 63.
      assert (63 <? zlen src = true) as -> by now apply Z.ltb_lt. destruct (negb _ && _) eqn:X; [|reflexivity].
      rewrite andb_true_iff, negb_true_iff, has_ace_iff in X. destruct X as (R & X). destruct (N R X).
    + subst src. assert (ascii_p (ace t) = true) as -> by now apply ascii_p_iff. rewrite has_no_roundtrip, R. cbn [negb andb].
      change (has_ace_prefix (ace t)) with true. cbv iota. change (skipn 4 (ace t)) with t. change LABEL_MAX with 63. rewrite D. reflexivity.
    + subst src. assert (ascii_p (ace t) = true) as -> by now apply ascii_p_iff. rewrite has_no_roundtrip, R. cbn [negb andb].
      change (has_ace_prefix (ace t)) with true. cbv iota. change (skipn 4 (ace t)) with t. change LABEL_MAX with 63. rewrite D. cbn [bind].
      destruct (u32_to_u8 l) eqn:E0; [|reflexivity]. apply u32_to_u8_scalar in E0. contradiction.
    + subst src. assert (ascii_p (ace t) = true) as -> by now apply ascii_p_iff. rewrite has_no_roundtrip, R. cbn [negb andb].
      change (has_ace_prefix (ace t)) with true. cbv iota. change (skipn 4 (ace t)) with t. change LABEL_MAX with 63. rewrite D. cbn [bind].
      destruct (u32_to_u8_total l S) as (s' & C). rewrite C. cbn [conv bind]. apply (label_tail_fx U s' _ f l); auto. now apply u32_u8_u32.
    + assert (ascii_p src = false) as -> by (apply not_true_iff_false; intros X; apply ascii_p_iff in X; auto).
      unfold label_tail, u8_to_u32_nfc. destruct (u8_to_u32 src) as [l|] eqn:E; [|reflexivity]. apply u8_to_u32_iff in E; auto. destruct (N _ E).
    + assert (ascii_p src = false) as -> by (apply not_true_iff_false; intros X; apply ascii_p_iff in X; auto).
      apply (label_tail_fx U src _ f l); auto; [now apply u8_to_u32_complete|now apply utf8_scalar in HU].
Qed.
