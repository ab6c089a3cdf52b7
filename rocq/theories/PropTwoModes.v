(** C88: looking up by IDNA 2008 alone (IDN2_NO_TR46) and with UTS #46.  The
    vocabulary is in SpecTwoModes.v. *)
From Verif Require Import Base PunyBase Uenv DataTypes SpecUtf8 SpecTables SpecLabel SpecNfc SpecLookup SpecToAscii Lookup Ucd SpecTwoModes TwoModesTop TwoModesCases.

(** A name that IDNA 2008 accepts in small letters. *)
Theorem C88_lower : forall U, nfc_ok U -> ascii_unmarked U -> forall f g, plain_flags f -> tr46_flags g ->
  forall src r l ls, opt_nfc f = false -> c_string src -> zlen src < two64 -> lookup_u8 U src f = Ok r -> utf8 l src -> dotted ls l ->
  Forall (fun c => ~ (65 <= c <= 90)) l -> (opt_std3 g = true -> Forall (fun c => ~ is_std3 c) l) ->
  (lookup_u8 U src g = Ok r <-> Forall hyphens_fine ls).
Proof. exact lower_same. Qed.
Print Assumptions C88_lower.
(** The same with capitals outside "xn--". *)
Theorem C88_mixed_case : forall U, nfc_ok U -> ascii_unmarked U -> forall f g, plain_flags f -> tr46_flags g ->
  forall src r l ls, opt_nfc f = false -> c_string src -> zlen src < two64 -> lookup_u8 U src f = Ok r -> utf8 l src -> dotted ls l ->
  Forall (fun s => ~ upper_ace s) ls -> (opt_std3 g = true -> Forall (fun c => ~ is_std3 c) l) ->
  (lookup_u8 U src g = Ok (map lower r) <-> Forall hyphens_fine ls).
Proof. exact default_iff. Qed.
Print Assumptions C88_mixed_case.
(** UTS #46 is IDNA 2008 after mapping and normalising. *)
Theorem C88_to_plain : forall U, nfc_ok U -> forall f g, plain_flags f -> tr46_flags g -> forall src r, c_string src -> zlen src < two64 -> lookup_u8 U src g = Ok r ->
  exists n b ls, prepared U g src n /\ utf8 n b /\ c_string b /\ dotted ls n /\ Forall hyphens_fine ls /\
    ((opt_std3 g = true \/ Forall unmixed ls) -> lookup_u8 U b f = Ok r).
Proof. exact to_raw. Qed.
Print Assumptions C88_to_plain.
Theorem C88_from_plain : forall U, nfc_ok U -> ascii_unmarked U -> forall f g, plain_flags f -> tr46_flags g ->
  forall src r n b ls, opt_nfc f = false -> c_string src -> zlen src < two64 -> prepared U g src n -> utf8 n b -> dotted ls n -> Forall hyphens_fine ls ->
  Forall (fun c => ~ (65 <= c <= 90)) n -> (opt_std3 g = true -> Forall (fun c => ~ is_std3 c) n) -> lookup_u8 U b f = Ok r -> lookup_u8 U src g = Ok r.
Proof. exact from_raw. Qed.
Print Assumptions C88_from_plain.
(** The conditions are needed. *)
Theorem C88_hyphens_refuted : exists s t r, c_string s /\ c_string t /\ lookup_u8 ucd s IDN2_NO_TR46 = Ok s /\ lookup_u8 ucd s 0 = Fail IDN2_2HYPHEN /\
  lookup_u8 ucd t IDN2_NO_TR46 = Ok r /\ lookup_u8 ucd t 0 = Fail IDN2_HYPHEN_STARTEND.
Proof. exact hyphens_wrong. Qed.
Print Assumptions C88_hyphens_refuted.
Theorem C88_upper_refuted : exists s, c_string s /\ upper_ace s /\ lookup_u8 ucd s IDN2_NO_TR46 = Ok s /\ exists rc, lookup_u8 ucd s 0 = Fail rc.
Proof. exact upper_wrong. Qed.
Print Assumptions C88_upper_refuted.
Theorem C88_std3_refuted : exists s r, c_string s /\ utf8 [252; 95] s /\ uts46_map false false [252; 95] = [252; 95] /\ ue_nfc ucd [252; 95] = Some [252; 95] /\
  lookup_u8 ucd s 0 = Ok r /\ lookup_u8 ucd s IDN2_NO_TR46 = Fail IDN2_DISALLOWED.
Proof. exact mixed_wrong. Qed.
Print Assumptions C88_std3_refuted.
Example C88_case : nfc_ok ucd /\ ascii_unmarked ucd /\ plain_flags IDN2_NO_TR46 /\ tr46_flags 0 /\ c_string bcd_b8 /\ zlen bcd_b8 < two64 /\
  utf8 bcd_b bcd_b8 /\ dotted [[66; 99; 100]; low_b] bcd_b /\ Forall (fun s => ~ upper_ace s) [[66; 99; 100]; low_b] /\ Forall hyphens_fine [[66; 99; 100]; low_b] /\
  lookup_u8 ucd bcd_b8 IDN2_NO_TR46 = Ok ([66; 99; 100; 46] ++ ace_b) /\ lookup_u8 ucd bcd_b8 0 = Ok ([98; 99; 100; 46] ++ ace_b).
Proof. exact two_modes_case. Qed.
Example C88_prepared_case : c_string upp_b8 /\ prepared ucd IDN2_USE_STD3_ASCII_RULES upp_b8 low_b /\ utf8 low_b low_b8 /\ dotted [low_b] low_b /\ Forall (fun c => ~ (65 <= c <= 90)) low_b /\
  Forall (fun c => ~ is_std3 c) low_b /\ lookup_u8 ucd low_b8 IDN2_NO_TR46 = Ok ace_b /\ lookup_u8 ucd upp_b8 IDN2_USE_STD3_ASCII_RULES = Ok ace_b /\ lookup_u8 ucd upp_b8 IDN2_NO_TR46 = Fail IDN2_DISALLOWED.
Proof. exact prepared_case. Qed.
