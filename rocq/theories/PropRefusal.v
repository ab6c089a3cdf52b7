(** Property C64: what the error codes of idn2_lookup_u8 say about the name.
    [refuses] is in SpecRefusal.v, [accepts] in SpecToAscii.v. *)
From Verif Require Import Base PunyBase Uenv DataTypes SpecUtf8 SpecPuny SpecTables SpecLabel SpecNfc SpecLookup SpecToAscii SpecRefusal
  Lookup Ucd UcdProofs LookupExamples RefusalExamples.

Theorem C64_explained : forall U src f rc, nfc_ok U -> c_string src -> zlen src < two64 ->
  lookup_u8 U src f = Fail rc -> refuses U f src rc.
Proof. exact refusal_explained. Qed.
Print Assumptions C64_explained.
(** Conversely.  Only for names of more than a thousand million bytes, without TR46, it is left open which of
    two codes is reported. *)
Theorem C64_refused : forall U src f rc, nfc_ok U -> c_string src -> zlen src < two64 -> refuses U f src rc ->
  exists rc', lookup_u8 U src f = Fail rc' /\ (rc' = rc \/ ((opt_no_tr46 f = true /\ 1000000000 < zlen src) /\ In rc room_codes /\ In rc' room_codes)).
Proof. exact refusal_refused. Qed.
Print Assumptions C64_refused.
(** For all other names, exactly. *)
Theorem C64_exact : forall U src f rc, nfc_ok U -> c_string src -> zlen src < two64 -> opt_no_tr46 f = false \/ zlen src <= 1000000000 ->
  (lookup_u8 U src f = Fail rc <-> refuses U f src rc).
Proof. exact refusal_exact. Qed.
Print Assumptions C64_exact.
Example C64_case : nfc_ok ucd /\ c_string (minus_a ++ 46 :: ab_c) /\ zlen (minus_a ++ 46 :: ab_c) < two64 /\
  lookup_u8 ucd (minus_a ++ 46 :: ab_c) 0 = Fail IDN2_2HYPHEN /\
  lookup_u8 ucd (ab_c ++ 46 :: minus_a) 0 = Fail IDN2_HYPHEN_STARTEND /\
  lookup_u8 ucd (minus_a ++ 46 :: [120; 110; 45; 45; 33]) 0 = Fail IDN2_PUNYCODE_BAD_INPUT /\
  lookup_u8 ucd [0xD7; 0x90; 97] 0 = Fail IDN2_BIDI /\
  lookup_u8 ucd [0xC3; 0xBC; 0x24] 0 = Fail IDN2_ALABEL_ROUNDTRIP_FAILED /\
  lookup_u8 ucd [97; 0xE2; 0x80; 0x8D] 64 = Fail IDN2_CONTEXTJ.
Proof. exact case_refusal. Qed.

Theorem C64_unique : forall U src f a b, nfc_ok U -> c_string src -> zlen src < two64 -> refuses U f src a -> refuses U f src b ->
  a = b \/ ((opt_no_tr46 f = true /\ 1000000000 < zlen src) /\ In a room_codes /\ In b room_codes).
Proof. exact refusal_unique. Qed.
Print Assumptions C64_unique.
(** The two specifications partition the names. *)
Theorem C64_accept_or_refuse : forall U src f, nfc_ok U -> c_string src -> zlen src < two64 ->
  ((exists r, accepts U f src r) \/ (exists rc, refuses U f src rc)) /\ ~ ((exists r, accepts U f src r) /\ (exists rc, refuses U f src rc)).
Proof. exact accept_or_refuse. Qed.
Print Assumptions C64_accept_or_refuse.

(** Without TR46 the first bad label decides ... *)
Theorem C64_raw_first : forall U a b f rc, opt_no_tr46 f = true -> lookup_u8 U a f = Fail rc -> lookup_u8 U (a ++ 46 :: b) f = Fail rc.
Proof. exact raw_first. Qed.
Print Assumptions C64_raw_first.
Example C64_raw_first_case : opt_no_tr46 64 = true /\ lookup_u8 ucd [97; 0xE2; 0x80; 0x8D] 64 = Fail IDN2_CONTEXTJ /\
  lookup_u8 ucd ([97; 0xE2; 0x80; 0x8D] ++ 46 :: [0xC3]) 64 = Fail IDN2_CONTEXTJ /\ lookup_u8 ucd [0xC3] 64 = Fail IDN2_ENCODING_ERROR.
Proof. exact case_raw_first. Qed.
(** ... with TR46 it does not. *)
Theorem C64_first_label_refuted : exists a b rc rc', dotted [a; b] (a ++ 46 :: b) /\
  lookup_u8 ucd a 0 = Fail rc /\ lookup_u8 ucd (a ++ 46 :: b) 0 = Fail rc' /\ rc <> rc'.
Proof. exact first_label_witness. Qed.
Print Assumptions C64_first_label_refuted.
