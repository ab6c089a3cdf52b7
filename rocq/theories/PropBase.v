(** Properties C33-C38, C41, C42, C45: conversions, data tables and label tests. *)
From Coq Require Import String.
From Verif Require Import Base Uenv DataTypes Tables SpecTables TablesProofs Gentr46 Tr46Map Tr46Valid Tr46Facts
  Utf8 SpecUtf8 Utf8Proofs Bidi SpecBidi BidiProofs Context SpecContext ContextProofs Idna SpecLabel LabelProofs
  SpecNfc SpecGen SpecRegister NfcProofs Ucd UcdProofs BaseTop.
Local Open Scope list_scope.
Local Open Scope Z_scope.

(** C45: the two conversions implement exactly the (strict) UTF-8 relation. *)
Theorem C45_utf8_decode : forall s l, bytes s -> (u8_to_u32 s = Some l <-> utf8 l s).
Proof. exact u8_to_u32_iff. Qed.
Print Assumptions C45_utf8_decode.
Theorem C45_utf8_encode : forall l s, u32_to_u8 l = Some s <-> utf8 l s.
Proof. exact u32_to_u8_iff. Qed.
Print Assumptions C45_utf8_encode.
Theorem C45_utf8_inverse : forall s l, bytes s -> (u8_to_u32 s = Some l <-> u32_to_u8 l = Some s).
Proof. exact utf8_inverse. Qed.
Print Assumptions C45_utf8_inverse.
Theorem C45_utf8_domain : forall l, (exists s, u32_to_u8 l = Some s) <-> Forall scalar l.
Proof. exact utf8_domain. Qed.
Print Assumptions C45_utf8_domain.
Example C45_case : u8_to_u32 [0x62; 0xC3; 0xBC; 0xE2; 0x82; 0xAC; 0xF0; 0x9F; 0x98; 0x80] = Some [0x62; 0xFC; 0x20AC; 0x1F600] /\
  u8_to_u32 [0xC0; 0xAF] = None /\ u8_to_u32 [0xED; 0xA0; 0x80] = None /\ u32_to_u8 [0xD800] = None.
Proof. vm_compute. auto. Qed.

(** C33. *)
Theorem C33_bidi_exact : forall U l,
  bidi U l = Ok tt <-> (~ has_rtl (ue_bidi U) l \/ bidi_rule_implemented (ue_bidi U) l).
Proof. exact bidi_iff. Qed.
Print Assumptions C33_bidi_exact.
Theorem C33_bidi_total : forall U l, bidi U l = Ok tt \/ bidi U l = Fail IDN2_BIDI.
Proof. exact bidi_safe. Qed.
Print Assumptions C33_bidi_total.
(** No label that RFC 5893 allows is rejected. *)
Theorem C33_bidi_complete : forall U l, rfc5893 (ue_bidi U) l -> bidi U l = Ok tt.
Proof. exact bidi_complete. Qed.
Print Assumptions C33_bidi_complete.
Example C33_case : bidi ucd [0x5d0; 0x2d; 0x31] = Ok tt /\ bidi ucd [0x5d0; 0x2d] = Fail IDN2_BIDI /\
  bidi ucd [0x61; 0x5d0] = Fail IDN2_BIDI /\ bidi ucd [0x31; 0x5d0] = Fail IDN2_BIDI /\ bidi ucd [0x2d; 0x31] = Ok tt.
Proof. vm_compute. auto 10. Qed.

(** C34: rule 4 is not checked, and rule 3 only looks at the last character. *)
Theorem C34_bidi_rule4_refuted : exists l,
  bidi ucd l = Ok tt /\ has_rtl (ue_bidi ucd) l /\ ~ rule4 (ue_bidi ucd) l.
Proof. exact bidi_rule4_witness. Qed.
Print Assumptions C34_bidi_rule4_refuted.
Theorem C34_bidi_rule3_refuted : exists l,
  bidi ucd l = Ok tt /\ has_rtl (ue_bidi ucd) l /\ ~ rule3 (ue_bidi ucd) l.
Proof. exact bidi_rule3_witness. Qed.
Print Assumptions C34_bidi_rule3_refuted.
(** The gap is exactly that: an accepted label that violates RFC 5893 violates
    rule 4, or ends in a non-empty run of NSM. *)
Theorem C34_bidi_gap : forall U l, bidi U l = Ok tt -> has_rtl (ue_bidi U) l ->
  rule4 (ue_bidi U) l -> (forall a c, l = a ++ [c] -> ue_bidi U c <> UC_BIDI_NSM) -> rfc5893 (ue_bidi U) l.
Proof. exact bidi_gap. Qed.
Print Assumptions C34_bidi_gap.
Example C34_case : rule4 (ue_bidi ucd) [0x5d0; 0x31] /\ bidi ucd [0x5d0; 0x31] = Ok tt.
Proof. split; [|vm_compute; reflexivity]. intros _ (_ & H). repeat (inversion H as [? ? K|? ? K]; subst; clear H; [destruct K as [K|[]]; vm_compute in K; discriminate|rename K into H]). inversion H. Qed.

(** C35. *)
Theorem C35_contextj : forall U pre c post,
  let r := contextj_rule U (pre ++ c :: post) (zlen pre) in
  (r = Ok tt /\ rfc5892_joiner U c pre post) \/ (r = Fail IDN2_CONTEXTJ /\ ~ rfc5892_joiner U c pre post).
Proof. exact contextj_rule_spec. Qed.
Print Assumptions C35_contextj.
Example C35_case :
  contextj_rule ucd [0x628; 0x64b; 0x200C; 0x64c; 0x627] 2 = Ok tt /\
  contextj_rule ucd [0x628; 0x64b; 0x200C; 0x61; 0x627] 2 = Fail IDN2_CONTEXTJ /\
  contextj_rule ucd [0x915; 0x94D; 0x200D] 2 = Ok tt /\ contextj_rule ucd [0x915; 0x200D] 1 = Fail IDN2_CONTEXTJ.
Proof. vm_compute. auto. Qed.

(** C36. *)
Theorem C36_contexto : forall U pre c post,
  let r := contexto_rule U (pre ++ c :: post) (zlen pre) in
  (r = Ok tt /\ rfc5892_other U c pre post) \/ (r = Fail IDN2_CONTEXTO /\ ~ rfc5892_other U c pre post).
Proof. exact contexto_rule_spec. Qed.
Print Assumptions C36_contexto.
(** Every CONTEXTJ / CONTEXTO code point of the IANA table has a rule. *)
Theorem C36_rules_complete : forall c,
  (csv_property c = CONTEXTJ <-> c = 0x200C \/ c = 0x200D) /\
  (csv_property c = CONTEXTO <-> contexto_with_rule c = true).
Proof. exact context_rules_complete. Qed.
Print Assumptions C36_rules_complete.
Example C36_case :
  contexto_rule ucd [0x6C; 0xB7; 0x6C] 1 = Ok tt /\ contexto_rule ucd [0x6C; 0xB7] 1 = Fail IDN2_CONTEXTO /\
  contexto_rule ucd [0x375; 0x3b1] 0 = Ok tt /\ contexto_rule ucd [0x5d0; 0x5F3] 1 = Ok tt /\
  contexto_rule ucd [0x661; 0x6F1] 0 = Fail IDN2_CONTEXTO /\ contexto_rule ucd [0x30FB; 0x4e00] 0 = Ok tt /\
  contexto_rule ucd [0x30FB; 0x61] 0 = Fail IDN2_CONTEXTO.
Proof. vm_compute. auto 10. Qed.

(** C37. *)
Theorem C37_property : forall c, property c = Ok (csv_property c).
Proof. exact property_spec. Qed.
Print Assumptions C37_property.
(** The CSV file is a function: at most one row covers a code point; all of
    0..10FFFF is covered, and nothing else. *)
Theorem C37_csv_functional : forall c,
  (forall r, In r DataCsv.csv_rows -> p_lo r <= c <= p_hi r -> csv_property c = p_prop r) /\
  (0 <= c <= 0x10FFFF -> exists r, In r DataCsv.csv_rows /\ p_lo r <= c <= p_hi r) /\
  (~ 0 <= c <= 0x10FFFF -> csv_property c = UNASSIGNED).
Proof. exact csv_functional. Qed.
Print Assumptions C37_csv_functional.
(** The generator and the search are right for every sorted CSV file. *)
Theorem C37_generator : forall rows b c, BsearchProofs.sorted_from p_lo p_hi b rows = true ->
  property_in (gendata rows) c =
  Ok (match find (BsearchProofs.covers p_lo p_hi c) rows with Some r => p_prop r | None => UNASSIGNED end).
Proof. exact property_in_spec. Qed.
Print Assumptions C37_generator.
Example C37_case : property 0x61 = Ok PVALID /\ property 0x41 = Ok DISALLOWED /\ property 0x200D = Ok CONTEXTJ /\
  property 0x378 = Ok UNASSIGNED /\ property 4294967295 = Ok UNASSIGNED.
Proof. vm_compute. auto 10. Qed.

(** C38: status and mapping delivered by the packed tables are those of
    IdnaMappingTable.txt; NFC_QC values those of DerivedNormalizationProps.txt. *)
Theorem C38_tr46_table : forall c, 0 <= c <= 0x10ffff ->
  exists r m, idna_row c = Some r /\ get_idna_map c = Ok (m, 0) /\
    (forall s, map_is m (tr46_flag s) = Ok true <-> r_status r = s) /\
    get_map_data m = Ok (r_map r) /\ m_n m = zlen (r_map r).
Proof. exact tr46_table_exact. Qed.
Print Assumptions C38_tr46_table.
Theorem C38_tr46_outside : forall c, 0x10ffff < c -> exists m, get_idna_map c = Ok (m, -1) /\
  map_is m (tr46_flag Std3Valid) = Ok true.
Proof. exact tr46_table_outside. Qed.
Print Assumptions C38_tr46_outside.
Theorem C38_rows_functional : forall r c, In r DataTr46.idna_rows -> r_lo r <= c <= r_hi r -> idna_row c = Some r.
Proof. exact idna_row_unique. Qed.
Print Assumptions C38_rows_functional.
Theorem C38_nfcqc : forall c, exists o, get_nfcqc_map c = Ok o /\
  match nfc_qc c with
  | None => o = None
  | Some k => exists q, o = Some q /\ match k with QcNo => nq_check q = 1 | QcMaybe => nq_check q = 2 end
  end.
Proof. exact nfcqc_values. Qed.
Print Assumptions C38_nfcqc.
Example C38_case : exists r, idna_row 0x2474 = Some r /\ r_status r = Std3Mapped /\ r_map r = [40; 49; 41].
Proof. eexists. vm_compute. auto. Qed.

(** C41. *)
Theorem C41_nfc_quick_check : forall U l,
  (isNFC U l = Ok 1 /\ qc_yes (ue_ccc U) 0 (visited false l)) \/
  (isNFC U l = Ok 0 /\ ~ qc_yes (ue_ccc U) 0 (visited false l)).
Proof. exact isNFC_spec. Qed.
Print Assumptions C41_nfc_quick_check.
Theorem C41_nfc_input : forall U src p, qc_sound U -> utf8 p src -> Forall (fun c => ~ supplementary c) p ->
  u8_to_u32_nfc U src true = match ue_nfc U p with Some q => Ok q | None => Fail IDN2_NFC end.
Proof. exact nfc_input. Qed.
Print Assumptions C41_nfc_input.
Theorem C41_no_nfc_input : forall U src p, utf8 p src -> u8_to_u32_nfc U src false = Ok p.
Proof. exact nfc_no_input. Qed.
Print Assumptions C41_no_nfc_input.
Theorem C41_not_utf8 : forall U src b, bytes src -> (forall p, ~ utf8 p src) -> u8_to_u32_nfc U src b = Fail IDN2_ENCODING_ERROR.
Proof. exact nfc_input_bad. Qed.
Print Assumptions C41_not_utf8.
(** The facts about normalisation which theorems here and elsewhere suppose
    hold of Normalization Form C over the character data of Unicode 14. *)
Theorem C41_unicode_data : nfc_ok ucd /\ qc_sound ucd /\ nfc_no_ldh ucd.
Proof. exact (conj ucd_nfc_ok (conj ucd_qc_sound ucd_no_ldh)). Qed.
Print Assumptions C41_unicode_data.
Example C41_case : qc_sound ucd /\ u8_to_u32_nfc ucd [0x65; 0xCC; 0x81] true = Ok [233].
Proof. exact (conj ucd_qc_sound nfc_case). Qed.
(** With supplementary code points the label may stay un-normalised
    (U+11099 U+110BA has the NFC form U+1109A). *)
Theorem C41_nfc_input_supplementary_refuted : exists src p q,
  utf8 p src /\ ue_nfc ucd p = Some q /\ q <> p /\ u8_to_u32_nfc ucd src true = Ok p.
Proof. exact nfc_skip_witness. Qed.
Print Assumptions C41_nfc_input_supplementary_refuted.

(** C42. *)
Theorem C42_label_test_ok : forall U what l, Forall (fun c => 0 <= c) l ->
  (label_test U what l = Ok tt <-> Forall passes (label_tests_spec U what l)).
Proof. exact label_test_ok_iff. Qed.
Print Assumptions C42_label_test_ok.
Theorem C42_label_test_fail : forall U what l rc, Forall (fun c => 0 <= c) l ->
  (label_test U what l = Fail rc <-> first_failure (label_tests_spec U what l) (Some rc)).
Proof. exact label_test_fail_iff. Qed.
Print Assumptions C42_label_test_fail.
Theorem C42_label_test_safe : forall U what l, Forall (fun c => 0 <= c) l -> safe (label_test U what l).
Proof. exact label_test_safe. Qed.
Print Assumptions C42_label_test_safe.
Example C42_case :
  label_test ucd 0x3FFF [0xE9; 0x6C; 0xB7; 0x6C] = Fail IDN2_CONTEXTO /\
  label_test ucd 0x3F5F [0xE9; 0x6C; 0xB7; 0x6C] = Ok tt /\
  label_test ucd 0x1 [0x65; 0x301] = Fail IDN2_NOT_NFC /\ label_test ucd 0x2 [0x61; 0x61; 0x2D; 0x2D] = Fail IDN2_2HYPHEN.
Proof. vm_compute. auto. Qed.
