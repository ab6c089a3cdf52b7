(** C90: looking up the result of a lookup with other flags. *)
From Verif Require Import Base Uenv DataTypes SpecNfc SpecLabel SpecLookup SpecToAscii SpecTwoModes SpecAgain Lookup Ucd Again AgainCases.

Theorem C90_again : forall U, nfc_ok U -> forall f g, opt_no_roundtrip f = false -> opt_no_tr46 f = false -> ~ bad_flags g ->
  forall src r, c_string src -> zlen src < two64 -> opt_no_tr46 g = false -> lookup_u8 U src f = Ok r -> no_stricter f g r -> lookup_u8 U r g = Ok r.
Proof. exact again. Qed.
Print Assumptions C90_again.

Theorem C90_plain : forall U f g src r, nfc_ok U -> c_string src -> zlen src < two64 -> tr46_flags f -> plain_flags g -> lookup_u8 U src f = Ok r ->
  (opt_std3 f = true \/ std3_free r) -> lookup_u8 U r g = Ok r.
Proof. exact again_plain. Qed.
Print Assumptions C90_plain.

Theorem C90_unchecked : forall U f g src r, nfc_ok U -> c_string src -> zlen src < two64 -> opt_no_roundtrip g = true -> opt_no_tr46 g = true -> ~ bad_flags g ->
  lookup_u8 U src f = Ok r -> lookup_u8 U r g = Ok r.
Proof. exact again_unchecked. Qed.
Print Assumptions C90_unchecked.

(** Even where the second lookup may fail, also with another version of the Unicode data. *)
Theorem C90_never_other : forall U V f g src r r', nfc_ok U -> nfc_ok V -> c_string src -> zlen src < two64 -> opt_no_roundtrip f = false -> opt_no_tr46 f = false ->
  lookup_u8 U src f = Ok r -> (opt_no_tr46 g = false -> opt_std3 g = true -> opt_no_roundtrip g = false /\ Forall (fun c => ~ is_std3 c) r) -> lookup_u8 V r g = Ok r' -> r' = r.
Proof. exact never_other. Qed.
Print Assumptions C90_never_other.

Theorem C90_std3_refuted : exists s r', c_string s /\ lookup_u8 ucd s 0 = Ok s /\ lookup_u8 ucd s IDN2_USE_STD3_ASCII_RULES = Ok r' /\ r' <> s.
Proof. exact std3_other. Qed.
Print Assumptions C90_std3_refuted.
Theorem C90_transitional_refuted : exists s r, c_string s /\ lookup_u8 ucd s IDN2_TRANSITIONAL = Ok r /\ lookup_u8 ucd r 0 = Fail IDN2_DISALLOWED.
Proof. exact transitional_refused. Qed.
Print Assumptions C90_transitional_refuted.
Theorem C90_plain_refuted : exists s r, c_string s /\ lookup_u8 ucd s 0 = Ok r /\ lookup_u8 ucd r IDN2_NO_TR46 = Fail IDN2_DISALLOWED.
Proof. exact plain_refused. Qed.
Print Assumptions C90_plain_refuted.

Example C90_case : nfc_ok ucd /\ c_string [195;156] /\ lookup_u8 ucd [195;156] 0 = Ok [120;110;45;45;116;100;97] /\
  no_stricter 0 (Z.lor IDN2_TRANSITIONAL IDN2_USE_STD3_ASCII_RULES) [120;110;45;45;116;100;97] /\ ~ bad_flags (Z.lor IDN2_TRANSITIONAL IDN2_USE_STD3_ASCII_RULES) /\
  std3_free [120;110;45;45;116;100;97] /\ tr46_flags 0 /\ plain_flags IDN2_NO_TR46 /\ ~ bad_flags (Z.lor IDN2_NO_TR46 IDN2_NO_ALABEL_ROUNDTRIP).
Proof. exact case_again. Qed.
