(** Properties C07-C10, C12-C18, C39, C40, C43, C44, C52: idn2_lookup_u8 on a
    non-NULL name.  [ucd] is the Unicode 14 database of Ucd.v. *)
From Verif Require Import Base Uenv DataTypes SpecUtf8 SpecPuny SpecTables SpecLabel SpecNfc SpecLookup
  Lookup LookupTr46 LookupIdem LookupMisc LookupMap StableProofs LookupTop LookupCodes Ucd UcdProofs LookupExamples.

(** C07. *)
Theorem C07_lookup_shape : forall U src flags r, nfc_ok U -> c_string src -> zlen src < two64 -> lookup_u8 U src flags = Ok r ->
  Forall (fun b => 0 < b < 128) r /\ (exists ls, dotted ls r /\ Forall (fun l => zlen l <= 63) ls) /\
  (zlen r <= 253 \/ (zlen r = 254 /\ exists t, r = t ++ [46])).
Proof. exact lookup_shape. Qed.
Print Assumptions C07_lookup_shape.
Example C07_case : nfc_ok ucd /\ c_string buecher /\ lookup_u8 ucd buecher 0 = Ok xn_buecher.
Proof. exact case_buecher. Qed.

(** C08. *)
Theorem C08_lookup_safe : forall U src flags, nfc_ok U -> c_string src -> zlen src < two64 -> safe (lookup_u8 U src flags).
Proof. exact lookup_safe. Qed.
Print Assumptions C08_lookup_safe.
Example C08_case : nfc_ok ucd /\ c_string buecher /\ lookup_u8 ucd buecher IDN2_NO_TR46 = Fail IDN2_DISALLOWED.
Proof. exact case_buecher_raw. Qed.

(** C09. *)
Theorem C09_idempotent : forall U src flags r, nfc_ok U -> c_string src -> zlen src < two64 -> opt_no_roundtrip flags = false ->
  lookup_u8 U src flags = Ok r -> lookup_u8 U r flags = Ok r.
Proof. exact lookup_idempotent. Qed.
Print Assumptions C09_idempotent.
Example C09_case : nfc_ok ucd /\ c_string strasse /\ opt_no_roundtrip IDN2_TRANSITIONAL = false /\
  lookup_u8 ucd strasse IDN2_TRANSITIONAL = Ok [115;116;114;97;115;115;101] /\ lookup_u8 ucd strasse 0 = Ok xn_strasse.
Proof. exact case_strasse. Qed.

(** C10: C09 fails with IDN2_NO_ALABEL_ROUNDTRIP. *)
Theorem C10_idempotent_no_roundtrip_refuted : exists src flags r, nfc_ok ucd /\ c_string src /\ zlen src < two64 /\ ~ bad_flags flags /\
  opt_no_roundtrip flags = true /\ lookup_u8 ucd src flags = Ok r /\ lookup_u8 ucd r flags = Fail IDN2_PUNYCODE_BAD_INPUT.
Proof. exact no_roundtrip_refuted. Qed.
Print Assumptions C10_idempotent_no_roundtrip_refuted.

(** C12. *)
Theorem C12_ascii_passthrough : forall U s f, nfc_ok U -> ascii_string s -> zlen s < two64 -> opt_no_tr46 f = true -> ~ bad_flags f ->
  (opt_no_roundtrip f = false -> forall ls l, dotted ls s -> In l ls -> ~ xn l) ->
  (fits s -> lookup_u8 U s f = Ok s) /\
  (~ fits s -> lookup_u8 U s f = Fail IDN2_TOO_BIG_DOMAIN \/
     (lookup_u8 U s f = Fail IDN2_TOO_BIG_LABEL /\ exists ls, dotted ls s /\ Exists (fun l => 63 < zlen l) ls)).
Proof. exact ascii_passthrough. Qed.
Print Assumptions C12_ascii_passthrough.
Example C12_case : ascii_string [65;46;66;95] /\ ~ bad_flags IDN2_NO_TR46 /\ opt_no_tr46 IDN2_NO_TR46 = true /\
  (forall ls l, dotted ls [65;46;66;95] -> In l ls -> ~ xn l) /\ lookup_u8 ucd [65;46;66;95] IDN2_NO_TR46 = Ok [65;46;66;95] /\
  lookup_u8 ucd (repeat 65 64) IDN2_NO_TR46 = Fail IDN2_TOO_BIG_LABEL.
Proof. exact case_passthrough. Qed.

(** C13. *)
Theorem C13_ascii_lowered : forall U s f r, nfc_ok U -> ascii_string s -> zlen s < two64 -> opt_no_tr46 f = false -> opt_std3 f = false ->
  lookup_u8 U s f = Ok r -> r = map lower s.
Proof. exact ascii_lowered. Qed.
Print Assumptions C13_ascii_lowered.
Theorem C13_ascii_unaltered_refuted : exists s r, nfc_ok ucd /\ ascii_string s /\ lookup_u8 ucd s 0 = Ok r /\ r <> s.
Proof. exact ascii_altered. Qed.
Print Assumptions C13_ascii_unaltered_refuted.
Example C13_case : nfc_ok ucd /\ ascii_string [65;46;66;95] /\ lookup_u8 ucd [65;46;66;95] 0 = Ok [97;46;98;95].
Proof. exact case_lowered. Qed.

(** C14. *)
Theorem C14_case_insensitive : forall U s1 s2 f, nfc_ok U -> c_string s1 -> c_string s2 -> opt_no_tr46 f = false -> same_but_case s1 s2 ->
  lookup_u8 U s1 f = lookup_u8 U s2 f.
Proof. exact lookup_case. Qed.
Print Assumptions C14_case_insensitive.
Example C14_case : same_but_case [66;195;188;67] [98;195;188;99] /\ opt_no_tr46 0 = false /\
  lookup_u8 ucd [66;195;188;67] 0 = Ok [120;110;45;45;98;99;45;120;107;97].
Proof. exact case_case. Qed.

(** C15. *)
Theorem C15_dots_ignored : forall U s1 s2 l1 l2 f, nfc_ok U -> c_string s1 -> c_string s2 -> opt_no_tr46 f = false -> utf8 l1 s1 -> utf8 l2 s2 ->
  same_but_dots l1 l2 -> lookup_u8 U s1 f = lookup_u8 U s2 f.
Proof. exact lookup_dots. Qed.
Print Assumptions C15_dots_ignored.
Example C15_case : same_but_dots [252; 0x3002; 97] [252; 0xAD; 46; 97] /\ utf8 [252; 0x3002; 97] [195;188;227;128;130;97] /\
  utf8 [252; 0xAD; 46; 97] [195;188;194;173;46;97] /\ lookup_u8 ucd [195;188;227;128;130;97] 0 = Ok [120;110;45;45;116;100;97;46;97].
Proof. exact case_dots. Qed.

(** C16. *)
Theorem C16_invalid_flags : forall U src flags, nfc_ok U -> c_string src -> zlen src < two64 ->
  (lookup_u8 U src flags = Fail IDN2_INVALID_FLAGS <-> bad_flags flags).
Proof. exact invalid_flags. Qed.
Print Assumptions C16_invalid_flags.
Theorem C16_name_not_examined : forall U src flags, bad_flags flags -> lookup_u8 U src flags = Fail IDN2_INVALID_FLAGS.
Proof. exact bad_flags_first. Qed.
Print Assumptions C16_name_not_examined.
Example C16_case : bad_flags 12 /\ ~ bad_flags 0 /\ lookup_u8 ucd [255] 12 = Fail IDN2_INVALID_FLAGS /\ lookup_u8 ucd [255] 0 = Fail IDN2_ENCODING_ERROR.
Proof. exact case_flags. Qed.

(** C17. *)
Theorem C17_nontransitional_default : forall U src f, opt_transitional f = false -> opt_no_tr46 f = false ->
  lookup_u8 U src (Z.lor f IDN2_NONTRANSITIONAL) = lookup_u8 U src f.
Proof. exact default_nontransitional. Qed.
Print Assumptions C17_nontransitional_default.
Theorem C17_roundtrip_default : forall U src f, opt_no_roundtrip f = false ->
  lookup_u8 U src (Z.lor f IDN2_ALABEL_ROUNDTRIP) = lookup_u8 U src f.
Proof. exact default_roundtrip. Qed.
Print Assumptions C17_roundtrip_default.
Theorem C17_unassigned_inert : forall U src f, lookup_u8 U src (Z.lor f IDN2_ALLOW_UNASSIGNED) = lookup_u8 U src f.
Proof. exact inert_unassigned. Qed.
Print Assumptions C17_unassigned_inert.
Theorem C17_std3_inert_no_tr46 : forall U src f, opt_no_tr46 f = true ->
  lookup_u8 U src (Z.lor f IDN2_USE_STD3_ASCII_RULES) = lookup_u8 U src f.
Proof. exact inert_std3. Qed.
Print Assumptions C17_std3_inert_no_tr46.
Theorem C17_unknown_bits_inert : forall U src f g, (forall n, 0 <= n <= 7 -> Z.testbit f n = Z.testbit g n) ->
  lookup_u8 U src f = lookup_u8 U src g.
Proof. exact inert_high_bits. Qed.
Print Assumptions C17_unknown_bits_inert.
Example C17_case : lookup_u8 ucd strasse 8 = Ok xn_strasse /\ lookup_u8 ucd strasse 2 = Ok xn_strasse /\
  lookup_u8 ucd strasse 16 = Ok xn_strasse /\ lookup_u8 ucd strasse 4 <> Ok xn_strasse /\
  opt_no_tr46 64 = true /\ opt_transitional 0 = false.
Proof. exact case_defaults. Qed.

(** C18. *)
Theorem C18_tr46_implies_nfc : forall U src f, nfc_ok U -> c_string src -> opt_no_tr46 f = false ->
  lookup_u8 U src (Z.lor f IDN2_NFC_INPUT) = lookup_u8 U src f.
Proof. exact lookup_nfc_flag. Qed.
Print Assumptions C18_tr46_implies_nfc.
Example C18_case : lookup_u8 ucd [101;204;129] 0 = Ok [120;110;45;45;57;99;97] /\
  lookup_u8 ucd [101;204;129] (Z.lor IDN2_NO_TR46 IDN2_NFC_INPUT) = Ok [120;110;45;45;57;99;97] /\
  lookup_u8 ucd [101;204;129] IDN2_NO_TR46 = Fail IDN2_NOT_NFC.
Proof. exact case_nfc. Qed.

(** C39. *)
Theorem C39_mapping : forall U src f r, nfc_ok U -> c_string src -> zlen src < two64 -> opt_no_tr46 f = false -> opt_no_roundtrip f = false ->
  lookup_u8 U src f = Ok r -> exists l n ls ds, utf8 l src /\ ~ Exists (fun c => status_of c = Disallowed) l /\
    ue_nfc U (uts46_map (opt_transitional f) (opt_std3 f) l) = Some n /\ dotted ls n /\ dotted ds r /\ Forall2 label_result ls ds.
Proof. exact lookup_result. Qed.
Print Assumptions C39_mapping.
Theorem C39_disallowed : forall U src f l, nfc_ok U -> c_string src -> opt_no_tr46 f = false -> ~ bad_flags f -> utf8 l src ->
  Exists (fun c => status_of c = Disallowed) l -> lookup_u8 U src f = Fail IDN2_DISALLOWED.
Proof. exact lookup_disallowed. Qed.
Print Assumptions C39_disallowed.
Theorem C39_too_big : forall U src f l, nfc_ok U -> c_string src -> opt_no_tr46 f = false -> ~ bad_flags f -> utf8 l src ->
  ~ Exists (fun c => status_of c = Disallowed) l -> 255 <= zlen (uts46_map (opt_transitional f) (opt_std3 f) l) ->
  lookup_u8 U src f = Fail IDN2_TOO_BIG_DOMAIN.
Proof. exact lookup_mapped_big. Qed.
Print Assumptions C39_too_big.
Theorem C39_not_utf8 : forall U s f, nfc_ok U -> c_string s -> opt_no_tr46 f = false -> ~ bad_flags f -> (~ exists l, utf8 l s) ->
  lookup_u8 U s f = Fail IDN2_ENCODING_ERROR.
Proof. exact lookup_invalid. Qed.
Print Assumptions C39_not_utf8.
Theorem C39_only_mapping_matters : forall U s l s' f, nfc_ok U -> c_string s -> c_string s' -> opt_no_tr46 f = false -> utf8 l s ->
  ~ Exists (fun c => status_of c = Disallowed) l -> utf8 (uts46_map (opt_transitional f) (opt_std3 f) l) s' ->
  lookup_u8 U s' f = lookup_u8 U s f.
Proof. exact lookup_premapped. Qed.
Print Assumptions C39_only_mapping_matters.
Example C39_case : uts46_map false false [0x2474; 0xDF; 0xAD; 65] = [40; 49; 41; 0xDF; 97] /\
  uts46_map true true [0x2474; 0xDF; 0xAD; 65; 95] = [115; 115; 97] /\
  lookup_u8 ucd [98;95] IDN2_USE_STD3_ASCII_RULES = Ok [98] /\ lookup_u8 ucd [194;128] 0 = Fail IDN2_DISALLOWED /\
  status_of 128 = Disallowed /\ utf8 [128] [194;128].
Proof. exact case_mapping. Qed.

(** C40. *)
Theorem C40_mapping_stable : forall tr std3 l, uts46_map tr std3 (uts46_map tr std3 l) = uts46_map tr std3 l.
Proof. exact uts46_map_stable. Qed.
Print Assumptions C40_mapping_stable.
Example C40_case : uts46_map false false [0x2474; 0x1F88] = [40; 49; 41; 0x1F00; 0x3B9].
Proof. exact case_stable. Qed.

(** C43. *)
Theorem C43_accepted_tests : forall U src f r d e, nfc_ok U -> c_string src -> zlen src < two64 -> opt_no_roundtrip f = false -> opt_transitional f = false ->
  lookup_u8 U src f = Ok r -> (exists ds, dotted ds r /\ In d ds) -> d = [120; 110; 45; 45] ++ e ->
  exists p, rfc_decodes e p /\ Exists (fun c => 128 <= c) p /\ ok_nfc U p /\ ok_2hyphen p /\ ok_leading U p /\
    ok_disallowed p (negb (opt_no_tr46 f) && negb (opt_std3 f)) /\ ok_no p UNASSIGNED /\
    ok_contextj_rule U p /\ ok_bidi U p /\ (opt_no_tr46 f = false -> ok_hyphen_startend p /\ ok_status p false (negb (opt_std3 f))).
Proof. exact accepted_tests. Qed.
Print Assumptions C43_accepted_tests.
Example C43_case : (exists ds, dotted ds xn_buecher /\ In [120;110;45;45;98;99;104;101;114;45;107;118;97] ds) /\
  lookup_u8 ucd buecher 0 = Ok xn_buecher.
Proof. exact case_accepted. Qed.

(** C44. *)
Theorem C44_no_upper_case : forall U src f r, nfc_ok U -> c_string src -> zlen src < two64 -> opt_no_roundtrip f = false -> opt_no_tr46 f = false ->
  lookup_u8 U src f = Ok r -> Forall (fun b => ~ (65 <= b <= 90)) r.
Proof. exact no_upper_case. Qed.
Print Assumptions C44_no_upper_case.
Example C44_case : lookup_u8 ucd [65;46;195;156;66] 0 = Ok [97;46;120;110;45;45;98;45;100;104;97].
Proof. exact case_upper. Qed.

(** C52. *)
Theorem C52_error_codes : forall U src flags rc, nfc_ok U -> c_string src -> zlen src < two64 -> lookup_u8 U src flags = Fail rc ->
  (bad_flags flags /\ rc = IDN2_INVALID_FLAGS) \/ (~ bad_flags flags /\ In rc lookup_errors).
Proof. exact lookup_codes. Qed.
Print Assumptions C52_error_codes.
Example C52_case : lookup_u8 ucd [104;105;45;45;195;188] IDN2_NO_TR46 = Fail IDN2_2HYPHEN /\ In IDN2_2HYPHEN lookup_errors /\
  ~ In IDN2_MALLOC lookup_errors /\ ~ In IDN2_DOT_IN_LABEL lookup_errors /\ ~ In IDN2_CONTEXTO lookup_errors.
Proof. exact case_codes. Qed.
