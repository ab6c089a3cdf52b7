(** Property C69: two names are the same name for DNS exactly when they have the same Unicode form.
    [tr46_prepared] and [unicode_name] are in SpecUnicode.v. *)
From Verif Require Import Base Uenv SpecUtf8 SpecNfc SpecLookup Lookup Api SpecUnicode Ucd SameName LookupExamples.

Theorem C69_same_iff : forall U a b f g r s, nfc_ok U -> c_string a -> zlen a < two64 -> c_string b -> zlen b < two64 ->
  opt_no_roundtrip f = false -> opt_no_roundtrip g = false -> opt_no_tr46 f = false -> opt_no_tr46 g = false ->
  lookup_u8 U a f = Ok r -> lookup_u8 U b g = Ok s ->
  (r = s <-> exists o q n, tr46_prepared U f a o /\ tr46_prepared U g b q /\ unicode_name o n /\ unicode_name q n).
Proof. exact same_iff. Qed.
Print Assumptions C69_same_iff.
Example C69_case : nfc_ok ucd /\ c_string buecher /\ c_string xn_upper /\ lookup_u8 ucd buecher 0 = Ok xn_buecher /\ lookup_u8 ucd xn_upper 0 = Ok xn_buecher /\
  tr46_prepared ucd 0 buecher [98;195;188;99;104;101;114;46;101;120] /\ tr46_prepared ucd 0 xn_upper xn_buecher /\
  unicode [98;195;188;99;104;101;114;46;101;120] = Ok [98;252;99;104;101;114;46;101;120] /\ unicode xn_buecher = Ok [98;252;99;104;101;114;46;101;120].
Proof. exact case_same. Qed.

(** Results of lookup, under whatever flags and Unicode version, are never displayed alike without being equal, ... *)
Theorem C69_same_form : forall U V a b f g r s n, nfc_ok U -> nfc_ok V -> c_string a -> zlen a < two64 -> c_string b -> zlen b < two64 ->
  opt_no_roundtrip f = false -> opt_no_roundtrip g = false -> lookup_u8 U a f = Ok r -> lookup_u8 V b g = Ok s ->
  (opt_no_tr46 f = true -> no_upper_ace r) -> (opt_no_tr46 g = true -> no_upper_ace s) ->
  unicode_name r n -> unicode_name s n -> r = s.
Proof. exact same_form. Qed.
Print Assumptions C69_same_form.

(** ... but not without each of the restrictions. *)
Theorem C69_no_roundtrip_refuted : exists a b r s n, nfc_ok ucd /\ c_string a /\ c_string b /\ lookup_u8 ucd a IDN2_NO_ALABEL_ROUNDTRIP = Ok r /\
  lookup_u8 ucd b IDN2_NO_ALABEL_ROUNDTRIP = Ok s /\ unicode r = Ok n /\ unicode s = Ok n /\ r <> s.
Proof. exact same_needs_roundtrip. Qed.
Print Assumptions C69_no_roundtrip_refuted.
Theorem C69_upper_ace_refuted : exists a b r s n, nfc_ok ucd /\ c_string a /\ c_string b /\ lookup_u8 ucd a IDN2_NO_TR46 = Ok r /\
  lookup_u8 ucd b IDN2_NO_TR46 = Ok s /\ unicode r = Ok n /\ unicode s = Ok n /\ r <> s.
Proof. exact same_needs_lower. Qed.
Print Assumptions C69_upper_ace_refuted.
