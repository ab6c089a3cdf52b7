(** The functions around idn2_lookup_u8: the cases beside the theorems of PropCWrap.v. *)
From Coq Require Import String.
From Verif Require Import Base PunyBase Uenv SpecUtf8 SpecNfc SpecLookup SpecToAscii SpecRefusal Utf8 Utf8Proofs Idna Lookup Api Ucd UcdProofs CostLabel CostCases ApiExamples LookupExamples
  CLang CLookupTop CLabelText CRegisterCases CWrap SpecCPuny SpecCLookup SpecCRegister SpecCWrap CWrapRun CWrapTop CWrapMeet.
Local Open Scope string_scope.
Local Open Scope list_scope.
Local Open Scope Z_scope.

Definition uml8 : list Z := [195; 188].
Definition xn_tda : list Z := [120; 110; 45; 45; 116; 100; 97].
(** A normaliser that fails. *)
Definition broken : uenv := Uenv (ue_ccc ucd) (ue_bidi ucd) (ue_join ucd) (ue_mark ucd) (ue_script ucd) (fun _ => None).
Lemma broken_fourfold : at_most_fourfold broken. Proof. intros l p E. discriminate E. Qed.
Lemma case_nfc : at_most_fourfold ucd /\ at_most_fourfold broken /\ forall look four from,
  nfc_text ucd look four from 1 [101; 204; 129] (inr [233]) /\ nfc_text ucd look four from 0 [101; 204; 129] (inr [101; 769]) /\ nfc_text ucd look four from 512 [195; 169] (inr [233]).
Proof.
  split; [exact ucd_fourfold|]. split; [exact broken_fourfold|]. intros look four from. split; [|split]; (apply (nfc_iff ucd look four from ucd_fourfold); [vm_compute; reflexivity|vm_compute; reflexivity]).
Qed.
Lemma case_nfc_code : forall look four from, nfc_text ucd look four from 0 [195] (inl IDN2_ENCODING_ERROR) /\ nfc_text broken look four from 1 [101; 204; 129] (inl IDN2_NFC) /\ nfc_text broken look four from 1 [195; 169] (inr [233]).
Proof.
  intros look four from. split; [apply (nfc_iff ucd look four from ucd_fourfold); vm_compute; reflexivity|].
  split; (apply (nfc_iff broken look four from broken_fourfold); vm_compute; reflexivity).
Qed.
Definition four_of : list Z -> Z -> Z + list Z := conv_result (look_of ucd).
Lemma i2_case : forall from f l r, zlen l <= 1000 -> f = 0 \/ f = IDN2_NO_TR46 -> four_of l f = r -> text_4i2 ucd (look_of ucd) four_of from f l r.
Proof. intros from f l r L F E. apply (text_4i2_iff ucd (look_of ucd) four_of from (lab_of ucd) ucd_nfc_ok (lab_of_is ucd ucd_nfc_ok) (look_of_is ucd ucd_nfc_ok)); [lia|destruct F as [-> | ->]; [|unfold IDN2_NO_TR46]; lia|exact E]. Qed.
Lemma z_case : forall from f l r, ~ In 0 l -> zlen l <= 1000 -> f = 0 -> four_of l f = r -> text_4z ucd (look_of ucd) four_of from f l r.
Proof. intros from f l r N L -> E. apply (text_4z_iff ucd (look_of ucd) four_of from (lab_of ucd) ucd_nfc_ok (lab_of_is ucd ucd_nfc_ok) (look_of_is ucd ucd_nfc_ok)); [exact N|lia|lia|exact E]. Qed.
Lemma case_is : label_is ucd (lab_of ucd) /\ lookup_is ucd (lab_of ucd) (look_of ucd) /\ nfc_ok ucd.
Proof. split; [apply lab_of_is; exact ucd_nfc_ok|]. split; [apply look_of_is; exact ucd_nfc_ok|exact ucd_nfc_ok]. Qed.
Lemma case_4i2 : forall from, text_4i2 ucd (look_of ucd) four_of from 0 [252] (inr xn_tda) /\ text_4i2 ucd (look_of ucd) four_of from 0 [252; 0; 98] (inr xn_tda) /\ until_zero [252; 0; 98] [252] /\ utf8 [252] uml8.
Proof.
  intros from. split; [apply i2_case; [vm_compute; discriminate|auto|vm_compute; reflexivity]|]. split; [apply i2_case; [vm_compute; discriminate|auto|vm_compute; reflexivity]|].
  split; [|apply u32_to_u8_iff; reflexivity]. split; [intros [E|[]]; discriminate E|right; exists [98]; reflexivity].
Qed.
Lemma case_4i2_code : forall from, text_4i2 ucd (look_of ucd) four_of from 0 [252; 0; 55296] (inl IDN2_ENCODING_ERROR) /\ text_4i2 ucd (look_of ucd) four_of from 0 [97; 45] (inl IDN2_HYPHEN_STARTEND).
Proof. intros from. split; (apply i2_case; [vm_compute; discriminate|auto|vm_compute; reflexivity]). Qed.
Lemma case_4z : forall from, text_4z ucd (look_of ucd) four_of from 0 [252] (inr xn_tda) /\ text_4z ucd (look_of ucd) four_of from 0 [97; 45] (inl IDN2_HYPHEN_STARTEND) /\ text_4z ucd (look_of ucd) four_of from 0 [55296] (inl IDN2_ENCODING_ERROR).
Proof. intros from. split; [|split]; (apply z_case; [intros H; cbn in H; lia|vm_compute; discriminate|reflexivity|vm_compute; reflexivity]). Qed.
(** A locale whose encoding is ISO 8859-1. *)
Definition latin1 (s : list Z) : option (list Z) := u32_to_u8 s.
Lemma ul_case : forall s b r, ~ In 0 s -> latin1 s = Some b -> c_string b -> zlen b <= 1000 -> look_of ucd b IDN2_NFC_INPUT = r -> ul_text ucd (look_of ucd) four_of latin1 0 s r.
Proof.
  intros s b r N E C L R. apply (ul_iff ucd (look_of ucd) four_of latin1 (lab_of ucd) ucd_nfc_ok (lab_of_is ucd ucd_nfc_ok) (look_of_is ucd ucd_nfc_ok)); [exact N| |lia|].
  - intros c Q. rewrite E in Q. injection Q as <-. split; [exact C|unfold two64; lia].
  - unfold ul_result. rewrite E. exact R.
Qed.
Lemma case_ul : latin1 [252] = Some uml8 /\ ul_text ucd (look_of ucd) four_of latin1 0 [252] (inr xn_tda) /\ ul_text ucd (look_of ucd) four_of latin1 0 [97; 45] (inl IDN2_HYPHEN_STARTEND) /\ ul_text ucd (look_of ucd) four_of (fun _ => None) 0 [252] (inl IDN2_ICONV_FAIL).
Proof.
  split; [reflexivity|]. split; [apply (ul_case [252] uml8); [intros H; cbn in H; lia|reflexivity|unfold c_string, uml8; in_range_list|vm_compute; discriminate|vm_compute; reflexivity]|].
  split; [apply (ul_case [97; 45] [97; 45]); [intros H; cbn in H; lia|reflexivity|unfold c_string; in_range_list|vm_compute; discriminate|vm_compute; reflexivity]|].
  apply (ul_iff ucd (look_of ucd) four_of (fun _ => None) (lab_of ucd) ucd_nfc_ok (lab_of_is ucd ucd_nfc_ok) (look_of_is ucd ucd_nfc_ok)); [intros H; cbn in H; lia|intros b E; discriminate E|lia|reflexivity].
Qed.
Definition long65 : list Z := repeat 97 32 ++ 46 :: repeat 97 32.
Lemma case_4i : forall from, (forall l f, zlen l < 100000000000000000 -> 0 <= f < 2147483648 -> text_4i2 ucd (look_of ucd) four_of from f l (four_of l f)) /\
  text_4i ucd (look_of ucd) four_of from 0 [252] true (repeat (Some 7) 63) 0 (map Some xn_tda ++ repeat (Some 7) 56) /\
  text_4i ucd (look_of ucd) four_of from 0 [252] false [] 0 [] /\
  text_4i ucd (look_of ucd) four_of from 0 long65 true (repeat None 63) IDN2_TOO_BIG_DOMAIN (repeat None 63) /\
  text_4i ucd (look_of ucd) four_of from 0 [97; 45] true (repeat None 63) IDN2_HYPHEN_STARTEND (repeat None 63).
Proof.
  intros from. assert (FO : forall l f, zlen l < 100000000000000000 -> 0 <= f < 2147483648 -> text_4i2 ucd (look_of ucd) four_of from f l (four_of l f)) by (intros; apply four_of_is; [exact ucd_nfc_ok|assumption..]).
  split; [exact FO|]. pose proof (j_both ucd (look_of ucd) four_of from (lab_of ucd) ucd_nfc_ok (lab_of_is ucd ucd_nfc_ok) (look_of_is ucd ucd_nfc_ok) FO 0) as J.
  split; [|split; [|split] ].
  - destruct (J [252] true (repeat (Some 7) 63) eq_refl ltac:(lia) ltac:(intros _; vm_compute; discriminate)) as (_ & _ & H). apply (H xn_tda); [apply case_4i2|vm_compute; discriminate].
  - destruct (J [252] false [] eq_refl ltac:(lia) ltac:(discriminate)) as (_ & _ & H). apply (H xn_tda); [apply case_4i2|vm_compute; discriminate].
  - destruct (J long65 true (repeat None 63) eq_refl ltac:(lia) ltac:(intros _; vm_compute; discriminate)) as (_ & H & _). apply (H long65); [apply i2_case; [vm_compute; discriminate|auto|vm_compute; reflexivity]|reflexivity].
  - destruct (J [97; 45] true (repeat None 63) eq_refl ltac:(lia) ltac:(intros _; vm_compute; discriminate)) as (H & _). apply H, case_4i2_code.
Qed.
