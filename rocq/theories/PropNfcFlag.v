(** Property C70: IDN2_NFC_INPUT without TR46.  [stands_for] is in SpecNfcFlag.v. *)
From Verif Require Import Base Uenv SpecUtf8 SpecNfc SpecLookup Lookup SpecNfcFlag NfcFlag Ucd.

Theorem C70_nfc_flag : forall U src f g r, nfc_ok U -> c_string src -> zlen src < two64 -> ~ bad_flags f -> ~ bad_flags g ->
  opt_no_tr46 f = true -> opt_no_tr46 g = true -> opt_nfc f = false -> opt_nfc g = true -> opt_no_roundtrip f = opt_no_roundtrip g ->
  (lookup_u8 U src f = Ok r <->
   lookup_u8 U src g = Ok r /\ forall ls, dotted ls src -> Forall (fun b => forall p, stands_for f b p -> ue_nfc U p = Some p) ls).
Proof. exact nfc_flag. Qed.
Print Assumptions C70_nfc_flag.
Example C70_case : nfc_ok ucd /\ ~ bad_flags IDN2_NO_TR46 /\ ~ bad_flags 65 /\ opt_no_tr46 65 = true /\ opt_nfc 65 = true /\
  lookup_u8 ucd [101;204;129] IDN2_NO_TR46 = Fail IDN2_NOT_NFC /\ lookup_u8 ucd [101;204;129] 65 = Ok [120;110;45;45;57;99;97] /\
  lookup_u8 ucd [195;169] IDN2_NO_TR46 = Ok [120;110;45;45;57;99;97] /\ lookup_u8 ucd [195;169] 65 = Ok [120;110;45;45;57;99;97].
Proof. exact case_nfc_flag. Qed.
