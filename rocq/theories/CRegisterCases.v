(** register.c: the cases beside the theorems of PropCRegister.v. *)
From Coq Require Import String.
From Verif Require Import Base PunyBase Uenv SpecUtf8 SpecNfc SpecLookup SpecRegister SpecRegRefusal Lookup Api Register RegisterProofs RegisterTop RegRefusalTop CostLabel CostCases Ucd UcdProofs ApiExamples LookupExamples
  CLang CRegister SpecCPuny SpecCRegister CRegisterTop.
Local Open Scope string_scope.
Local Open Scope list_scope.
Local Open Scope Z_scope.

Lemma u_case : forall reg f s r, c_string s -> zlen s <= 1000 -> f = 0 \/ f = IDN2_NFC_INPUT -> reg_ulabel ucd s f = (match r with inr t => Ok t | inl rc => Fail rc end) -> ulabel_text ucd reg f s r.
Proof. intros reg f s r CS LS F E. apply (utext_iff ucd reg ucd_nfc_ok ucd_fourfold f s CS ltac:(lia)); [destruct F as [-> | ->]; [|unfold IDN2_NFC_INPUT]; lia|exact E]. Qed.
Lemma a_case : forall u a r, (forall x, u = Some x -> c_string x) -> c_string a -> zlen a <= 1000 -> reg_alabel ucd u a = (match r with inr t => Ok t | inl rc => Fail rc end) -> alabel_text ucd (inner_reg ucd) u a r.
Proof. intros u a r CU CA LA E. apply (atext_iff ucd (inner_reg ucd) ucd_nfc_ok ucd_fourfold (inner_text ucd ucd_nfc_ok ucd_fourfold) u a CU CA ltac:(lia)). exact E. Qed.
Lemma case_ulabel : nfc_ok ucd /\ at_most_fourfold ucd /\ c_string ue8 /\
  forall reg, ulabel_text ucd reg 0 ue8 (inr xn_ue) /\ ulabel_text ucd reg IDN2_NFC_INPUT [101; 204; 129] (inr [120; 110; 45; 45; 57; 99; 97]) /\ ulabel_text ucd reg 0 [65; 95] (inr [65; 95]).
Proof.
  split; [exact ucd_nfc_ok|]. split; [exact ucd_fourfold|]. split; [exact ue_c|]. intros reg.
  split; [|split]; (apply u_case; [unfold c_string, ue8; in_range_list|vm_compute; discriminate|auto|vm_compute; reflexivity]).
Qed.
Lemma y64_c : c_string y64. Proof. apply Forall_forall. intros b I. apply repeat_spec in I. lia. Qed.
Lemma case_ulabel_code : forall reg, ulabel_text ucd reg 0 y64 (inl IDN2_TOO_BIG_LABEL) /\ ulabel_text ucd reg 0 [195] (inl IDN2_ENCODING_ERROR) /\ ulabel_text ucd reg 0 [195; 188; 45] (inl IDN2_HYPHEN_STARTEND) /\
  ulabel_text ucd reg 0 [101; 204; 129] (inl IDN2_NOT_NFC).
Proof.
  intros reg. split; [apply u_case; [exact y64_c|vm_compute; discriminate|auto|vm_compute; reflexivity]|].
  split; [|split]; (apply u_case; [unfold c_string; in_range_list|vm_compute; discriminate|auto|vm_compute; reflexivity]).
Qed.
Lemma case_alabel : c_string xn_ue /\ alabel_text ucd (inner_reg ucd) None xn_ue (inr xn_ue) /\ alabel_text ucd (inner_reg ucd) (Some ue8) xn_ue (inr xn_ue).
Proof.
  assert (C : c_string xn_ue) by (unfold c_string, xn_ue; in_range_list). split; [exact C|].
  split; (apply a_case; [|exact C|vm_compute; discriminate|vm_compute; reflexivity]); intros x E; [discriminate E|]. apply (f_equal (fun o => match o with Some y => y | None => [] end)) in E. subst x. exact ue_c.
Qed.
Lemma case_alabel_code : alabel_text ucd (inner_reg ucd) (Some [98]) xn_ue (inl IDN2_UALABEL_MISMATCH) /\ alabel_text ucd (inner_reg ucd) None xnTda (inl IDN2_UALABEL_MISMATCH) /\
  alabel_text ucd (inner_reg ucd) None [97; 98; 99] (inl IDN2_INVALID_ALABEL) /\ alabel_text ucd (inner_reg ucd) None [120; 110; 45; 45; 33] (inl IDN2_PUNYCODE_BAD_INPUT) /\ alabel_text ucd (inner_reg ucd) None y64 (inl IDN2_TOO_BIG_LABEL).
Proof.
  split; [apply a_case; [intros x E; apply (f_equal (fun o => match o with Some y => y | None => [] end)) in E; subst x; unfold c_string; in_range_list|unfold c_string, xn_ue; in_range_list|vm_compute; discriminate|vm_compute; reflexivity]|].
  do 3 (split; [apply a_case; [intros x E; discriminate E|unfold c_string, xnTda; in_range_list|vm_compute; discriminate|vm_compute; reflexivity]|]).
  apply a_case; [intros x E; discriminate E|exact y64_c|vm_compute; discriminate|vm_compute; reflexivity].
Qed.
