(** C102: the C text of idn2_register_ul, run by the rules of C11. *)
From Coq Require Import String.
From Verif Require Import Base Uenv SpecNfc SpecLookup SpecRegRefusal Lookup RegisterTop Ucd CostLabel CLang SpecCPuny SpecCRegister SpecCRegUl CRegisterCases CWrapCases CRegUlTop.
Local Open Scope string_scope.
Local Open Scope list_scope.
Local Open Scope Z_scope.

(** The call of idn2_register_u8 can be what the theorems ask of it. *)
Theorem C102_has : forall U, nfc_ok U -> at_most_fourfold U -> exists reg, register_is U reg.
Proof. exact have_reg. Qed.
Print Assumptions C102_has.
(** It returns, in one way only. *)
Theorem C102_returns : forall U reg from, nfc_ok U -> at_most_fourfold U -> register_is U reg -> forall f u a, 0 <= f < 2147483648 -> u <> None \/ a <> None -> (forall s, u = Some s -> ~ In 0 s) ->
  (forall s b, u = Some s -> from s = Some b -> c_string b /\ zlen b <= 1000000000) -> (forall x, a = Some x -> c_string x /\ zlen x < 4611686018427387904) ->
  exists r, regul_text reg from f u a r /\ forall r', regul_text reg from f u a r' -> r' = r.
Proof. exact rul_exists. Qed.
Print Assumptions C102_returns.
(** What it gives is what is to be registered for the converted U-label, normalised, and the
    A-label. *)
Theorem C102_registers : forall U reg from, nfc_ok U -> at_most_fourfold U -> register_is U reg -> forall f u a, 0 <= f < 2147483648 -> u <> None \/ a <> None -> (forall s, u = Some s -> ~ In 0 s) ->
  (forall s b, u = Some s -> from s = Some b -> c_string b /\ zlen b <= 1000000000) -> (forall x, a = Some x -> c_string x /\ zlen x < 4611686018427387904) ->
  forall t, regul_text reg from f u a (inr t) <-> exists c, converted from u c /\ registers U (Z.lor f IDN2_NFC_INPUT) c a t.
Proof. exact rul_registers. Qed.
Print Assumptions C102_registers.
Example C102_registers_case : register_is ucd (reg_of ucd) /\ let P := regul_text (reg_of ucd) latin1 0 in
  P (Some [98; 252; 45; 53]) None (inr xn_ue) /\ P (Some [98; 252; 45; 53]) (Some xn_ue) (inr xn_ue) /\ P None (Some xn_ue) (inr xn_ue) /\
  regul_text (reg_of ucd) (fun _ => Some [101; 204; 129]) 0 (Some [101]) None (inr [120; 110; 45; 45; 57; 99; 97]).
Proof. exact case_rul. Qed.
(** The code it fails with. *)
Theorem C102_code : forall U reg from, nfc_ok U -> at_most_fourfold U -> register_is U reg -> forall f u a, 0 <= f < 2147483648 -> u <> None \/ a <> None -> (forall s, u = Some s -> ~ In 0 s) ->
  (forall s b, u = Some s -> from s = Some b -> c_string b /\ zlen b <= 1000000000) -> (forall x, a = Some x -> c_string x /\ zlen x < 4611686018427387904) ->
  forall rc, regul_text reg from f u a (inl rc) <-> (exists s, u = Some s /\ from s = None /\ rc = IDN2_ICONV_FAIL) \/ exists c, converted from u c /\ registration_refused U (Z.lor f IDN2_NFC_INPUT) c a rc.
Proof. exact rul_refused. Qed.
Print Assumptions C102_code.
Example C102_code_case : let P := regul_text (reg_of ucd) latin1 0 in
  P (Some [252; 45]) None (inl IDN2_HYPHEN_STARTEND) /\ P (Some [98]) (Some xn_ue) (inl IDN2_UALABEL_MISMATCH) /\ regul_text (reg_of ucd) (fun _ => None) 0 (Some [98; 252; 45; 53]) (Some xn_ue) (inl IDN2_ICONV_FAIL).
Proof. exact case_rul_code. Qed.
