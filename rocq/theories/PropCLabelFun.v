(** C96: the C text of label(), run by the rules of C11. *)
From Coq Require Import String.
From Verif Require Import Base Uenv Ucd SpecNfc SpecLookup SpecToAscii SpecRefusal LookupExamples CLang CLookup SpecCPuny SpecCLookup CLookupTop CLabelText CLabelFunCases.
Local Open Scope string_scope.
Local Open Scope list_scope.
Local Open Scope Z_scope.

(** It returns, with one result. *)
Theorem C96_returns : forall U lab f s, nfc_ok U -> Forall (fun b => 0 < b <= 255) s -> ~ In 46 s -> 4 * zlen s < two64 -> 0 <= f < 2147483648 ->
  exists r, label_text U lab f s r /\ forall r', label_text U lab f s r' -> r' = r.
Proof. exact label_one. Qed.
Print Assumptions C96_returns.

(** Without TR46 it does what section 5 of RFC 5891 asks for, and says why not. *)
Theorem C96_label : forall U lab f s, nfc_ok U -> Forall (fun b => 0 < b <= 255) s -> ~ In 46 s -> 4 * zlen s < two64 -> 0 <= f < 2147483648 -> ~ bad_flags f -> opt_no_tr46 f = true ->
  forall t, label_text U lab f s (inr t) <-> raw_label U f s t.
Proof. exact label_accepts. Qed.
Print Assumptions C96_label.
Example C96_label_case : forall lab, label_text ucd lab 64 [72;105] (inr [72;105]) /\ label_text ucd lab 64 [195;188] (inr [120;110;45;45;116;100;97]) /\
  label_text ucd lab 64 [120;110;45;45;116;100;97] (inr [120;110;45;45;116;100;97]).
Proof. exact case_label. Qed.
Theorem C96_label_code : forall U lab f s, nfc_ok U -> Forall (fun b => 0 < b <= 255) s -> ~ In 46 s -> 4 * zlen s < two64 -> 0 <= f < 2147483648 -> ~ bad_flags f -> opt_no_tr46 f = true ->
  forall rc, zlen s <= 1000000000 -> (label_text U lab f s (inl rc) <-> raw_refuses U f s rc).
Proof. exact label_refuses. Qed.
Print Assumptions C96_label_code.
Example C96_label_code_case : forall lab, label_text ucd lab 64 [104;105;45;45;195;188] (inl IDN2_2HYPHEN) /\ label_text ucd lab 64 [195] (inl IDN2_ENCODING_ERROR) /\
  label_text ucd lab 64 [120;110;45;45] (inl IDN2_PUNYCODE_BAD_INPUT) /\ label_text ucd lab 64 (repeat 97 64) (inl IDN2_TOO_BIG_LABEL) /\ label_text ucd lab 64 [120;110;45;45;97;195;188] (inl IDN2_2HYPHEN).
Proof. exact case_label_not. Qed.

(** The texts together: idn2_lookup_u8 with this label(), in all modes. *)
Theorem C96_accepts : forall U lab, nfc_ok U -> label_is U lab -> forall f s d, c_string s -> 32 * (zlen s + 1) < two64 -> 0 <= f < 2147483648 ->
  (lookup_text U lab f s (inr d) <-> accepts U f s d).
Proof. exact whole_accepts. Qed.
Print Assumptions C96_accepts.
Theorem C96_refuses : forall U lab, nfc_ok U -> label_is U lab -> forall f s rc, c_string s -> 32 * (zlen s + 1) < two64 -> 0 <= f < 2147483648 -> opt_no_tr46 f = false \/ zlen s <= 1000000000 ->
  (lookup_text U lab f s (inl rc) <-> refuses U f s rc).
Proof. exact whole_refuses. Qed.
Print Assumptions C96_refuses.
Example C96_whole_case : label_is ucd (lab_of ucd) /\ nfc_ok ucd /\ lookup_text ucd (lab_of ucd) 0 strasse (inr xn_strasse) /\ lookup_text ucd (lab_of ucd) 0 [97;45] (inl IDN2_HYPHEN_STARTEND).
Proof. exact case_is. Qed.
