(** Cases for C96. *)
From Coq Require Import String.
From Verif Require Import Base PunyBase Uenv Ucd UcdProofs SpecUtf8 SpecNfc SpecLookup SpecToAscii SpecRefusal Idna Lookup LookupProofs LookupExamples CLang CLookup SpecCPuny SpecCLookup CLookupTop CLabelText.
Local Open Scope string_scope.
Local Open Scope list_scope.
Local Open Scope Z_scope.

Lemma text_case : forall lab f s r, plain_label s -> 4 * zlen s < two64 -> 0 <= f < 2147483648 -> r = lab_of ucd s f -> label_text ucd lab f s r.
Proof. intros lab f s r P L F E. apply text_label_iff; [exact ucd_nfc_ok|exact P|exact L|exact F|exact E]. Qed.
Ltac plain := split; [repeat (constructor; [lia|]); constructor|split; [intros H; repeat (destruct H as [H|H]; [discriminate H|]); exact H|reflexivity]].
(** With IDN2_NO_TR46: "Hi", "ü", "xn--tda"; "hi--ü", half a character, "xn--", 64 letters. *)
Lemma case_label : forall lab, label_text ucd lab 64 [72;105] (inr [72;105]) /\ label_text ucd lab 64 [195;188] (inr [120;110;45;45;116;100;97]) /\
  label_text ucd lab 64 [120;110;45;45;116;100;97] (inr [120;110;45;45;116;100;97]).
Proof. intros lab. repeat split; intros; apply text_case; try plain; try reflexivity; try lia; vm_compute; reflexivity. Qed.
Lemma case_label_not : forall lab, label_text ucd lab 64 [104;105;45;45;195;188] (inl IDN2_2HYPHEN) /\ label_text ucd lab 64 [195] (inl IDN2_ENCODING_ERROR) /\
  label_text ucd lab 64 [120;110;45;45] (inl IDN2_PUNYCODE_BAD_INPUT) /\ label_text ucd lab 64 (repeat 97 64) (inl IDN2_TOO_BIG_LABEL) /\ label_text ucd lab 64 [120;110;45;45;97;195;188] (inl IDN2_2HYPHEN).
Proof. intros lab. split; [|split; [|split; [|split] ] ]; apply text_case; try plain; try reflexivity; try lia; vm_compute; reflexivity. Qed.
Lemma case_is : label_is ucd (lab_of ucd) /\ nfc_ok ucd /\ lookup_text ucd (lab_of ucd) 0 strasse (inr xn_strasse) /\ lookup_text ucd (lab_of ucd) 0 [97;45] (inl IDN2_HYPHEN_STARTEND).
Proof.
  split; [apply lab_of_is; exact ucd_nfc_ok|]. split; [exact ucd_nfc_ok|]. split.
  - apply (whole_ok ucd (lab_of ucd) ucd_nfc_ok (lab_of_is ucd ucd_nfc_ok) 0 strasse strasse_c); [reflexivity|lia|vm_compute; reflexivity].
  - apply (whole_ok ucd (lab_of ucd) ucd_nfc_ok (lab_of_is ucd ucd_nfc_ok) 0 [97;45]); [repeat (constructor; [lia|]); constructor|reflexivity|lia|vm_compute; reflexivity].
Qed.
