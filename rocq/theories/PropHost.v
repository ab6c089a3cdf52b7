(** Property C79: with IDN2_USE_STD3_ASCII_RULES a lookup returns host names.
    [host_labels], [kept] and [nfc_case] are in SpecHost.v, [name_fits] is in
    SpecToAscii.v; [ucd] is the Unicode 14 database of Ucd.v. *)
From Verif Require Import Base Uenv DataTypes SpecUtf8 SpecPuny SpecTables SpecNfc SpecLookup SpecRegister SpecToAscii SpecHost
  Lookup Ucd UcdProofs HostProofs HostCases.

(** C79. *)
Theorem C79_host_names : forall U, nfc_ok U -> forall src f r ds, opt_no_roundtrip f = false \/ nfc_case U -> c_string src -> zlen src < two64 ->
  opt_no_tr46 f = false -> opt_std3 f = true -> lookup_u8 U src f = Ok r -> dotted ds r -> host_labels ds.
Proof. exact host_names. Qed.
Print Assumptions C79_host_names.
Theorem C79_unicode14 : forall src f r ds, c_string src -> zlen src < two64 -> opt_no_tr46 f = false -> opt_std3 f = true ->
  lookup_u8 ucd src f = Ok r -> dotted ds r -> host_labels ds.
Proof. exact unicode14_hosts. Qed.
Print Assumptions C79_unicode14.
Example C79_case : c_string shop /\ opt_no_tr46 32 = false /\ opt_std3 32 = true /\ opt_no_roundtrip 32 = false /\ opt_no_roundtrip 160 = true /\
  lookup_u8 ucd shop 32 = Ok (join shop_ace) /\ lookup_u8 ucd shop 160 = Ok (join shop_ace) /\ dotted shop_ace (join shop_ace).
Proof. exact case_host. Qed.

(** What becomes of ASCII names, and which of them are accepted. *)
Theorem C79_ascii_result : forall U, nfc_ok U -> forall s f r, ascii_string s -> zlen s < two64 ->
  opt_no_tr46 f = false -> opt_std3 f = true -> opt_no_roundtrip f = false -> lookup_u8 U s f = Ok r -> r = kept s.
Proof. exact ascii_result. Qed.
Print Assumptions C79_ascii_result.
Theorem C79_ascii_exact : forall s f r ls, ascii_string s -> zlen s < two64 -> opt_no_tr46 f = false -> opt_std3 f = true ->
  dotted ls (kept s) -> Forall (fun d => ~ xn d) ls ->
  (lookup_u8 ucd s f = Ok r <-> ~ bad_flags f /\ r = kept s /\ host_labels ls /\ name_fits ls r).
Proof. exact ascii_exact14. Qed.
Print Assumptions C79_ascii_exact.
Example C79_ascii_case : ascii_string [97;95;66;46;45;99] /\ kept [97;95;66;46;45;99] = [97;98;46;45;99] /\
  dotted [[97;98]; [45;99]] [97;98;46;45;99] /\ ~ host_labels [[97;98]; [45;99]] /\ lookup_u8 ucd [97;95;66;46;45;99] 32 = Fail IDN2_HYPHEN_STARTEND /\
  host_labels [[97;98]; [99]] /\ lookup_u8 ucd [97;95;66;46;99] 32 = Ok [97;98;46;99].
Proof. exact case_ascii_host. Qed.

(** Not so: that the flag makes names with an underscore fail; that the result
    has host labels without the flag, or without TR46; that no label is empty. *)
Theorem C79_refuses_refuted : exists src r, In 95 src /\ c_string src /\ lookup_u8 ucd src IDN2_USE_STD3_ASCII_RULES = Ok r.
Proof. exact std3_drops. Qed.
Print Assumptions C79_refuses_refuted.
Theorem C79_no_flag_refuted : exists src f r ds, c_string src /\ opt_no_tr46 f = false /\ lookup_u8 ucd src f = Ok r /\ dotted ds r /\ ~ host_labels ds.
Proof. exact flag_needed. Qed.
Print Assumptions C79_no_flag_refuted.
Theorem C79_no_tr46_refuted : exists src f r ds, c_string src /\ opt_std3 f = true /\ lookup_u8 ucd src f = Ok r /\ dotted ds r /\ ~ host_labels ds.
Proof. exact tr46_needed. Qed.
Print Assumptions C79_no_tr46_refuted.
Theorem C79_nonempty_refuted : exists src r ds, c_string src /\ lookup_u8 ucd src IDN2_USE_STD3_ASCII_RULES = Ok r /\ dotted ds r /\ ~ Forall host_label ds.
Proof. exact empty_label. Qed.
Print Assumptions C79_nonempty_refuted.
