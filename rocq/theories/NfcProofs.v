From Verif Require Import Base Uenv DataTypes SpecTables Gentr46 Tr46Map Tr46Valid Tr46Facts Utf8 Idna SpecNfc.

Section P.
  Variable U : uenv.
  Lemma isNFC_loop_spec : forall l skip last result, result = 1 ->
    (isNFC_loop U l skip last result = Ok 1 /\ qc_yes (ue_ccc U) last (visited skip l)) \/
    (isNFC_loop U l skip last result = Ok 0 /\ ~ qc_yes (ue_ccc U) last (visited skip l)).
  Proof.
    induction l as [|c r IH]; intros skip last result ->; cbn [isNFC_loop visited].
    - left. split; [reflexivity|exact I].
    - destruct skip; [apply IH; reflexivity|]. cbn [qc_yes].
      destruct ((ue_ccc U c <? last) && negb (ue_ccc U c =? 0)) eqn:E.
      + right. split; [reflexivity|]. rewrite andb_true_iff, negb_true_iff, Z.eqb_neq, Z.ltb_lt in E. lia.
      + rewrite andb_false_iff, negb_false_iff, Z.eqb_eq, Z.ltb_ge in E.
        destruct (nfcqc_spec c) as (o & Eo & Ho). rewrite Eo. cbn [bind].
        destruct (nfc_qc c) as [k|].
        * destruct Ho as (q & -> & Hq). assert (nq_check q =? 0 = false) as -> by (rewrite Hq; destruct k; reflexivity).
          right. split; [reflexivity|]. intros (K & _). discriminate.
        * subst o. destruct (IH (0x10000 <=? c) (ue_ccc U c) 1 eq_refl) as [(F & H)|(F & H)]; rewrite F; [left|right].
          -- split; [reflexivity|]. split; [reflexivity|]. split; [lia|exact H].
          -- split; [reflexivity|]. tauto.
  Qed.
  Lemma isNFC_spec : forall l,
    (isNFC U l = Ok 1 /\ qc_yes (ue_ccc U) 0 (visited false l)) \/ (isNFC U l = Ok 0 /\ ~ qc_yes (ue_ccc U) 0 (visited false l)).
  Proof. intros l. apply isNFC_loop_spec. reflexivity. Qed.

  Lemma visited_bmp : forall l, Forall (fun c => ~ supplementary c) l -> visited false l = l.
  Proof.
    induction 1 as [|c l Hc Hl IH]; [reflexivity|]. cbn [visited]. unfold supplementary in Hc.
    destruct (0x10000 <=? c) eqn:E; [apply Z.leb_le in E; lia|]. now rewrite IH.
  Qed.
  Lemma qc_yes_weaken : forall ccc l last, (forall c, 0 <= ccc c) -> qc_yes ccc last l -> 0 <= last -> qc_yes ccc 0 l.
  Proof. intros ccc [|c l] last H; cbn [qc_yes]; [auto|]. intros (A & B & C) L. pose proof (H c). repeat split; auto. Qed.

  Lemma nfc_normalises : forall src, qc_sound U -> (forall p, u8_to_u32 src = Some p -> Forall (fun c => ~ supplementary c) p) ->
    u8_to_u32_nfc U src true =
    (let* p := conv (u8_to_u32 src) IDN2_ENCODING_ERROR in conv (ue_nfc U p) IDN2_NFC).
  Proof.
    intros src Q B. unfold u8_to_u32_nfc. destruct (u8_to_u32 src) as [p|]; cbn [conv bind]; [|reflexivity].
    destruct (isNFC_spec p) as [(E & Y)|(E & Y)]; rewrite E; cbn [bind].
    - rewrite visited_bmp in Y by auto. apply Q in Y. rewrite Y. reflexivity.
    - reflexivity.
  Qed.
  Lemma nfc_or_skip : forall src p, u8_to_u32 src = Some p ->
    u8_to_u32_nfc U src true = conv (ue_nfc U p) IDN2_NFC \/
    (u8_to_u32_nfc U src true = Ok p /\ qc_yes (ue_ccc U) 0 (visited false p)).
  Proof.
    intros src p E0. unfold u8_to_u32_nfc. rewrite E0. cbn [conv bind].
    destruct (isNFC_spec p) as [(E & Y)|(E & Y)]; rewrite E; cbn [bind]; auto.
  Qed.
End P.
