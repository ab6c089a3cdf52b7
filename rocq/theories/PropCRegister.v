(** C98: the C text of lib/register.c, run by the rules of C11. *)
From Coq Require Import String.
From Verif Require Import Base Uenv SpecNfc SpecLookup SpecRegRefusal Lookup RegisterTop RegRefusalTop CostLabel Ucd CLang CRegister SpecCPuny SpecCRegister CRegisterTop CRegisterCases.
Local Open Scope string_scope.
Local Open Scope list_scope.
Local Open Scope Z_scope.

(** With a U-label, idn2_register_u8 returns, in one way only. *)
Theorem C98_ulabel_returns : forall U reg, nfc_ok U -> at_most_fourfold U -> forall f s, c_string s -> 4 * zlen s < 4611686018427387904 -> 0 <= f < 2147483648 -> exists r, ulabel_text U reg f s r /\ forall r', ulabel_text U reg f s r' -> r' = r.
Proof. exact utext_exists. Qed.
Print Assumptions C98_ulabel_returns.
(** What it gives is what is to be registered. *)
Theorem C98_ulabel : forall U reg f s t, nfc_ok U -> at_most_fourfold U -> c_string s -> 4 * zlen s < 4611686018427387904 -> 0 <= f < 2147483648 -> (ulabel_text U reg f s (inr t) <-> registers U f (Some s) None t).
Proof. exact ulabel_registers. Qed.
Print Assumptions C98_ulabel.
Example C98_ulabel_case : nfc_ok ucd /\ at_most_fourfold ucd /\ c_string ue8 /\
  forall reg, ulabel_text ucd reg 0 ue8 (inr xn_ue) /\ ulabel_text ucd reg IDN2_NFC_INPUT [101; 204; 129] (inr [120; 110; 45; 45; 57; 99; 97]) /\ ulabel_text ucd reg 0 [65; 95] (inr [65; 95]).
Proof. exact case_ulabel. Qed.
(** The code it fails with. *)
Theorem C98_ulabel_code : forall U reg f s rc, nfc_ok U -> at_most_fourfold U -> c_string s -> zlen s <= 1000000000 -> 0 <= f < 2147483648 -> (ulabel_text U reg f s (inl rc) <-> registration_refused U f (Some s) None rc).
Proof. exact ulabel_refused. Qed.
Print Assumptions C98_ulabel_code.
Example C98_ulabel_code_case : forall reg, ulabel_text ucd reg 0 y64 (inl IDN2_TOO_BIG_LABEL) /\ ulabel_text ucd reg 0 [195] (inl IDN2_ENCODING_ERROR) /\ ulabel_text ucd reg 0 [195; 188; 45] (inl IDN2_HYPHEN_STARTEND) /\
  ulabel_text ucd reg 0 [101; 204; 129] (inl IDN2_NOT_NFC).
Proof. exact case_ulabel_code. Qed.
(** With an A-label it calls itself; [reg] is what the text above does.  There is such a [reg]. *)
Theorem C98_inner : forall U, nfc_ok U -> at_most_fourfold U -> forall x, c_string x -> zlen x <= 255 -> ulabel_text U (inner_reg U) 0 x (inner_reg U x).
Proof. exact inner_text. Qed.
Print Assumptions C98_inner.
Theorem C98_alabel_returns : forall U reg, nfc_ok U -> at_most_fourfold U -> (forall x, c_string x -> zlen x <= 255 -> ulabel_text U reg 0 x (reg x)) -> forall u a, (forall x, u = Some x -> c_string x) -> c_string a -> zlen a < 4611686018427387904 ->
  exists r, alabel_text U reg u a r /\ forall r', alabel_text U reg u a r' -> r' = r.
Proof. exact atext_exists. Qed.
Print Assumptions C98_alabel_returns.
Theorem C98_alabel : forall U reg f u a t, nfc_ok U -> at_most_fourfold U -> (forall x, c_string x -> zlen x <= 255 -> ulabel_text U reg 0 x (reg x)) -> (forall x, u = Some x -> c_string x) -> c_string a -> zlen a < 4611686018427387904 ->
  (alabel_text U reg u a (inr t) <-> registers U f u (Some a) t).
Proof. exact alabel_registers. Qed.
Print Assumptions C98_alabel.
Example C98_alabel_case : c_string xn_ue /\ alabel_text ucd (inner_reg ucd) None xn_ue (inr xn_ue) /\ alabel_text ucd (inner_reg ucd) (Some ue8) xn_ue (inr xn_ue).
Proof. exact case_alabel. Qed.
Theorem C98_alabel_code : forall U reg f u a rc, nfc_ok U -> at_most_fourfold U -> (forall x, c_string x -> zlen x <= 255 -> ulabel_text U reg 0 x (reg x)) -> (forall x, u = Some x -> c_string x) -> c_string a -> zlen a < 4611686018427387904 ->
  (alabel_text U reg u a (inl rc) <-> registration_refused U f u (Some a) rc).
Proof. exact alabel_refused. Qed.
Print Assumptions C98_alabel_code.
Example C98_alabel_code_case : alabel_text ucd (inner_reg ucd) (Some [98]) xn_ue (inl IDN2_UALABEL_MISMATCH) /\ alabel_text ucd (inner_reg ucd) None xnTda (inl IDN2_UALABEL_MISMATCH) /\
  alabel_text ucd (inner_reg ucd) None [97; 98; 99] (inl IDN2_INVALID_ALABEL) /\ alabel_text ucd (inner_reg ucd) None [120; 110; 45; 45; 33] (inl IDN2_PUNYCODE_BAD_INPUT) /\ alabel_text ucd (inner_reg ucd) None y64 (inl IDN2_TOO_BIG_LABEL).
Proof. exact case_alabel_code. Qed.
