(** Property C77: which results of lookup can be registered. *)
From Verif Require Import Base Uenv DataTypes SpecUtf8 SpecPuny SpecLabel SpecNfc SpecLookup SpecRegister SpecToAscii SpecRegGap Lookup Api Register Ucd RegGap.

Theorem C77_result : forall U, nfc_ok U -> forall src f r ds e g q, c_string src -> zlen src < two64 -> opt_no_roundtrip f = false -> opt_transitional f = false ->
  lookup_u8 U src f = Ok r -> dotted ds r -> In (ace e) ds ->
  (register_u8 U None (Some (ace e)) (Some q) g = Ok (IDN2_OK, Some (Some (ace e))) <-> exists p, rfc_decodes e p /\ registration_extra U p).
Proof. exact result_registrable. Qed.
Print Assumptions C77_result.
(** With TR46 and IDN2_USE_STD3_ASCII_RULES, only the CONTEXTO rules are left. *)
Theorem C77_result_std3 : forall U, nfc_ok U -> forall src f r ds e g q, c_string src -> zlen src < two64 -> opt_no_roundtrip f = false -> opt_transitional f = false ->
  opt_no_tr46 f = false -> opt_std3 f = true -> lookup_u8 U src f = Ok r -> dotted ds r -> In (ace e) ds ->
  (register_u8 U None (Some (ace e)) (Some q) g = Ok (IDN2_OK, Some (Some (ace e))) <-> exists p, rfc_decodes e p /\ ok_contexto_rule U p).
Proof. exact result_registrable_std3. Qed.
Print Assumptions C77_result_std3.
(** The same U-label given to both functions, without TR46. *)
Theorem C77_ulabel : forall U, nfc_ok U -> forall u f r q, (opt_nfc f = true -> nfc_no_ldh U) -> c_string u -> zlen u < two64 -> not_ascii u -> ~ In 46 u ->
  opt_no_tr46 f = true -> ~ bad_flags f ->
  (register_u8 U (Some u) None (Some q) f = Ok (IDN2_OK, Some (Some r)) <->
   lookup_u8 U u f = Ok r /\ exists l p, utf8 l u /\ normal_form U (opt_nfc f) l p /\ registration_extra U p).
Proof. exact ulabel_gap. Qed.
Print Assumptions C77_ulabel.
(** None of the three conditions follows from the others. *)
Theorem C77_hyphen_refuted : exists src r, c_string src /\ lookup_u8 ucd src IDN2_NO_TR46 = Ok r /\
  register_u8 ucd None (Some r) (Some None) 0 = Ok (IDN2_HYPHEN_STARTEND, Some None).
Proof. exact gap_hyphen. Qed.
Print Assumptions C77_hyphen_refuted.
Theorem C77_contexto_refuted : exists src r, c_string src /\ lookup_u8 ucd src IDN2_USE_STD3_ASCII_RULES = Ok r /\
  register_u8 ucd None (Some r) (Some None) 0 = Ok (IDN2_CONTEXTO, Some None).
Proof. exact gap_contexto. Qed.
Print Assumptions C77_contexto_refuted.
Theorem C77_std3_refuted : exists src r, c_string src /\ lookup_u8 ucd src 0 = Ok r /\
  register_u8 ucd None (Some r) (Some None) 0 = Ok (IDN2_DISALLOWED, Some None).
Proof. exact gap_std3. Qed.
Print Assumptions C77_std3_refuted.
(** Transitional processing accepts labels that fail further tests. *)
Theorem C77_transitional_refuted : exists src e p, c_string src /\ lookup_u8 ucd src IDN2_TRANSITIONAL = Ok (ace e) /\ rfc_decodes e p /\ registration_extra ucd p /\
  register_u8 ucd None (Some (ace e)) (Some None) 0 = Ok (IDN2_BIDI, Some None).
Proof. exact gap_transitional. Qed.
Print Assumptions C77_transitional_refuted.
Example C77_case : nfc_ok ucd /\ nfc_no_ldh ucd /\ c_string two_labels /\ lookup_u8 ucd two_labels IDN2_USE_STD3_ASCII_RULES = Ok (ace [116;100;97] ++ 46 :: ace [97;98;45;48;101;97]) /\
  dotted [ace [116;100;97]; ace [97;98;45;48;101;97]] (ace [116;100;97] ++ 46 :: ace [97;98;45;48;101;97]) /\
  rfc_decodes [116;100;97] [252] /\ registration_extra ucd [252] /\ rfc_decodes [97;98;45;48;101;97] [97; 183; 98] /\ ~ registration_extra ucd [97; 183; 98] /\
  register_u8 ucd None (Some (ace [116;100;97])) (Some None) 0 = Ok (IDN2_OK, Some (Some (ace [116;100;97]))) /\
  register_u8 ucd None (Some (ace [97;98;45;48;101;97])) (Some None) 0 = Ok (IDN2_CONTEXTO, Some None).
Proof. exact case_gap. Qed.
