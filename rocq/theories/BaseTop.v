(** Corollaries and witnesses stated in PropBase.v. *)
From Coq Require Import String.
From Verif Require Import Base Uenv DataTypes Tables SpecTables TablesProofs Gentr46 Tr46Map Tr46Valid Tr46Facts
  Utf8 SpecUtf8 Utf8Proofs Bidi SpecBidi BidiProofs Context SpecContext ContextProofs Idna SpecLabel LabelProofs
  SpecNfc SpecGen NfcProofs Ucd BsearchProofs.
Local Open Scope list_scope.
Local Open Scope Z_scope.

Lemma utf8_inverse : forall s l, bytes s -> (u8_to_u32 s = Some l <-> u32_to_u8 l = Some s).
Proof. intros s l H. rewrite u8_to_u32_iff by exact H. now rewrite u32_to_u8_iff. Qed.
Lemma utf8_domain : forall l, (exists s, u32_to_u8 l = Some s) <-> Forall scalar l.
Proof. intros l. split; [intros (s & H); eapply u32_to_u8_scalar; eauto|apply u32_to_u8_total]. Qed.

Lemma bidi_rule4_witness : exists l, bidi ucd l = Ok tt /\ has_rtl (ue_bidi ucd) l /\ ~ rule4 (ue_bidi ucd) l.
Proof.
  exists [0x627; 0x31; 0x661]. split; [reflexivity|]. split.
  - apply Exists_cons_hd. right. left. reflexivity.
  - intros H. apply H.
    + exists 0x627, [0x31; 0x661]. split; [reflexivity|]. right. left. reflexivity.
    + split; [apply Exists_cons_tl, Exists_cons_hd; left; reflexivity|].
      apply Exists_cons_tl, Exists_cons_tl, Exists_cons_hd. left. reflexivity.
Qed.
Lemma bidi_rule3_witness : exists l, bidi ucd l = Ok tt /\ has_rtl (ue_bidi ucd) l /\ ~ rule3 (ue_bidi ucd) l.
Proof.
  exists [0x5d0; 0x2d; 0x301]. split; [reflexivity|]. split.
  - apply Exists_cons_hd. left. reflexivity.
  - intros H. destruct H as (a & c & n & E & H & F).
    + exists 0x5d0, [0x2d; 0x301]. split; [reflexivity|]. left. reflexivity.
    + destruct a as [|a0 [|a1 [|a2 a]]]; cbn [app] in E.
      * injection E as <- <-. inversion F as [|x y K K']; subst. destruct K as [K|[]]; vm_compute in K; discriminate.
      * injection E as _ <- <-. unfold class_in, rtl_end in H. vm_compute in H. intuition discriminate.
      * injection E as _ _ <- <-. unfold class_in, rtl_end in H. vm_compute in H. intuition discriminate.
      * injection E as _ _ _ E. destruct a; discriminate.
Qed.

Lemma weak_strong : forall cls s l, ends_weak cls s l -> (forall a c, l = a ++ [c] -> cls c <> UC_BIDI_NSM) -> ends cls s l.
Proof.
  intros cls s l (a & c & -> & H) N. exists a, c, []. split; [reflexivity|]. split; [|constructor].
  destruct H as [H|H]; [|exact H]. exfalso. exact (N a c eq_refl (eq_sym H)).
Qed.
Lemma bidi_gap : forall U l, bidi U l = Ok tt -> has_rtl (ue_bidi U) l ->
  rule4 (ue_bidi U) l -> (forall a c, l = a ++ [c] -> ue_bidi U c <> UC_BIDI_NSM) -> rfc5893 (ue_bidi U) l.
Proof.
  intros U l H R R4 N. apply bidi_iff in H. destruct H as [H|(H1 & H2 & H3 & H5 & H6)]; [contradiction|].
  repeat split; auto; intros K; apply weak_strong; auto.
Qed.

Lemma context_rules_complete : forall c,
  (csv_property c = CONTEXTJ <-> c = 0x200C \/ c = 0x200D) /\
  (csv_property c = CONTEXTO <-> contexto_with_rule c = true).
Proof. intros c. split; [apply csv_ctx|]. now rewrite csv_cto, with_rule_iff. Qed.

Lemma csv_functional : forall c,
  (forall r, In r DataCsv.csv_rows -> p_lo r <= c <= p_hi r -> csv_property c = p_prop r) /\
  (0 <= c <= 0x10FFFF -> exists r, In r DataCsv.csv_rows /\ p_lo r <= c <= p_hi r) /\
  (~ 0 <= c <= 0x10FFFF -> csv_property c = UNASSIGNED).
Proof.
  intros c. split; [intros r; apply csv_row_property|]. split; [|apply csv_outside].
  intros H. destruct (csv_total c H) as (r & I & C & _). eauto.
Qed.

Lemma flag_value : forall s, flag_of s = tr46_flag s.
Proof. intros []; reflexivity. Qed.
Lemma tr46_table_exact : forall c, 0 <= c <= 0x10ffff ->
  exists r m, idna_row c = Some r /\ get_idna_map c = Ok (m, 0) /\
    (forall s, map_is m (tr46_flag s) = Ok true <-> r_status r = s) /\
    get_map_data m = Ok (r_map r) /\ m_n m = zlen (r_map r).
Proof.
  intros c Hc. destruct (idna_map_spec c Hc) as (r & m & R & E & F & D & N). exists r, m. repeat split; auto.
  - destruct (map_facts c ltac:(lia)) as (m' & k' & E' & F' & _). rewrite E in E'. injection E' as <- <-.
    rewrite <- flag_value, F'. unfold status_of. rewrite R. intros K. apply status_eqb_iff. congruence.
  - intros K. destruct (map_facts c ltac:(lia)) as (m' & k' & E' & F' & _). rewrite E in E'. injection E' as <- <-.
    rewrite <- flag_value, F'. unfold status_of. rewrite R. f_equal. now apply status_eqb_iff.
Qed.
Lemma tr46_table_outside : forall c, 0x10ffff < c -> exists m, get_idna_map c = Ok (m, -1) /\
  map_is m (tr46_flag Std3Valid) = Ok true.
Proof.
  intros c Hc. exists (IdnaMap 0 0 0 0 0). split; [now apply idna_map_outside|].
  destruct (map_facts c ltac:(lia)) as (m' & k' & E' & F' & _). rewrite idna_map_outside in E' by exact Hc.
  injection E' as <- <-. rewrite <- flag_value, F'. unfold status_of.
  destruct (idna_row c) eqn:R; [apply idna_row_range in R; lia|reflexivity].
Qed.
Lemma idna_row_unique : forall r c, In r DataTr46.idna_rows -> r_lo r <= c <= r_hi r -> idna_row c = Some r.
Proof. intros r c I C. rewrite idna_row_find. exact (find_unique r_lo r_hi DataTr46.idna_rows 0 c r rows_sorted I C). Qed.

Lemma nfc_case : u8_to_u32_nfc ucd [0x65; 0xCC; 0x81] true = Ok [233].
Proof. vm_compute. reflexivity. Qed.
Lemma nfc_skip_witness : exists src p q,
  utf8 p src /\ ue_nfc ucd p = Some q /\ q <> p /\ u8_to_u32_nfc ucd src true = Ok p.
Proof.
  exists [0xF0; 0x91; 0x82; 0x99; 0xF0; 0x91; 0x82; 0xBA], [0x11099; 0x110BA], [0x1109A].
  split; [apply u32_to_u8_iff; reflexivity|]. split; [reflexivity|]. split; [discriminate|]. vm_compute. reflexivity.
Qed.
Lemma nfc_input : forall U src p, qc_sound U -> utf8 p src -> Forall (fun c => ~ supplementary c) p ->
  u8_to_u32_nfc U src true = match ue_nfc U p with Some q => Ok q | None => Fail IDN2_NFC end.
Proof.
  intros U src p Q D B. apply u8_to_u32_iff in D; [|apply u32_to_u8_iff in D; now apply u32_to_u8_bytes in D]. rewrite nfc_normalises; [|exact Q|intros p' E; congruence].
  rewrite D. cbn [conv bind]. now destruct (ue_nfc U p).
Qed.
Lemma nfc_input_bad : forall U src b, bytes src -> (forall p, ~ utf8 p src) -> u8_to_u32_nfc U src b = Fail IDN2_ENCODING_ERROR.
Proof.
  intros U src b B N. unfold u8_to_u32_nfc. destruct (u8_to_u32 src) as [p|] eqn:E; [|reflexivity]. apply u8_to_u32_iff in E; [|exact B].
  destruct (N p E).
Qed.
Lemma nfc_no_input : forall U src p, utf8 p src -> u8_to_u32_nfc U src false = Ok p.
Proof. intros U src p D. apply u8_to_u32_iff in D; [|apply u32_to_u8_iff in D; now apply u32_to_u8_bytes in D]. unfold u8_to_u32_nfc. now rewrite D. Qed.

(** The quick-check values of the table, as numbers. *)
Lemma nfcqc_values : forall c, exists o, get_nfcqc_map c = Ok o /\
  match nfc_qc c with
  | None => o = None
  | Some k => exists q, o = Some q /\ match k with QcNo => nq_check q = 1 | QcMaybe => nq_check q = 2 end
  end.
Proof.
  intros c. destruct (nfcqc_spec c) as (o & E & H). exists o. split; [exact E|]. destruct (nfc_qc c) as [k|]; [|exact H].
  destruct H as (q & -> & H). exists q. split; [reflexivity|]. rewrite H. now destruct k.
Qed.
