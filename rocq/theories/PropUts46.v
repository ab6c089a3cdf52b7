(** Property C65: what idn2_lookup_u8 and ToASCII of UTS #46 have in common, and
    where they differ.  The standard is in SpecUts46.v; [ucd] is the Unicode 14
    database of Ucd.v. *)
From Verif Require Import Base Uenv DataTypes Lookup SpecUtf8 SpecPuny SpecTables SpecLabel SpecNfc SpecLookup SpecToAscii SpecUts46
  Uts46Proofs Ucd LookupExamples ApiExamples Uts46Examples PunyDet.

(** The decoding of RFC 3492, on which both rely, has at most one result. *)
Theorem C65_rfc_decodes_unique : forall s L1 L2, rfc_decodes s L1 -> rfc_decodes s L2 -> L1 = L2.
Proof. exact rfc_decodes_det. Qed.
Print Assumptions C65_rfc_decodes_unique.

(** A result of lookup is one of UTS #46 (without CheckBidi), for names without
    characters that STD3 disallows resp. results without A-labels for mapped ones;
    also under VerifyDnsLength, if no label is empty. *)
Theorem C65_sound : forall U, nfc_ok U -> forall f dns src l r, c_string src -> zlen src < two64 ->
  opt_no_tr46 f = false -> opt_no_roundtrip f = false -> utf8 l src ->
  (opt_std3 f = true -> Forall (fun c => ~ is_std3 c) l) ->
  (opt_std3 f = false -> no_a_label_with (fun c => status_of c = Std3Mapped) r) ->
  (dns = true -> no_empty_label r) ->
  lookup_u8 U src f = Ok r -> exists ps, uts46_to_ascii U (lib_params f false dns) l ps r.
Proof. exact uts46_sound. Qed.
Print Assumptions C65_sound.

(** What UTS #46 accepts with all its checks, nontransitionally, lookup accepts with
    the same result, if IDNA2008 knows the characters. *)
Theorem C65_complete : forall U, nfc_ok U -> forall f src l ps r, c_string src -> zlen src < two64 -> ~ bad_flags f ->
  opt_no_tr46 f = false -> opt_no_roundtrip f = false -> opt_transitional f = false -> utf8 l src ->
  uts46_to_ascii U (lib_params f true true) l ps r -> Forall (idna2008_chars (opt_std3 f)) ps ->
  zlen (flat_map (map_char (lib_params f true true)) l) < 255 ->
  lookup_u8 U src f = Ok r.
Proof. exact uts46_complete. Qed.
Print Assumptions C65_complete.
Example C65_case : nfc_ok ucd /\ utf8 buecher4 buecher /\ c_string buecher /\ lookup_u8 ucd buecher 0 = Ok xn_buecher /\
  no_a_label_with (fun c => status_of c = Std3Mapped) xn_buecher /\ no_empty_label xn_buecher /\
  uts46_to_ascii ucd (lib_params 0 true true) buecher4 [uml_label; [101;120]] xn_buecher /\
  Forall (idna2008_chars (opt_std3 0)) [uml_label; [101;120]] /\ zlen (flat_map (map_char (lib_params 0 true true)) buecher4) < 255.
Proof. exact case_uts46. Qed.

(** Without the conditions of [C65_sound]: the Bidi rule is applied to labels, not
    to names ("1." and a Hebrew letter); ... *)
Theorem C65_bidi_refuted : exists src l r, c_string src /\ utf8 l src /\ lookup_u8 ucd src 0 = Ok r /\
  forall ps r', ~ uts46_to_ascii ucd (lib_params 0 true false) l ps r'.
Proof. exact bidi_refuted. Qed.
Print Assumptions C65_bidi_refuted.
(** ... STD3 rules drop characters instead of refusing the name ("a_b"); ... *)
Theorem C65_std3_refuted : exists src l r, c_string src /\ utf8 l src /\ lookup_u8 ucd src IDN2_USE_STD3_ASCII_RULES = Ok r /\
  forall ps r', ~ uts46_to_ascii ucd (lib_params IDN2_USE_STD3_ASCII_RULES false false) l ps r'.
Proof. exact std3_refuted. Qed.
Print Assumptions C65_std3_refuted.
(** ... without STD3 rules, A-labels for characters pass that should have been mapped
    (xn--8rh); ... *)
Theorem C65_mapped_refuted : exists src l r, c_string src /\ utf8 l src /\ lookup_u8 ucd src 0 = Ok r /\
  forall ps r', ~ uts46_to_ascii ucd (lib_params 0 false false) l ps r'.
Proof. exact mapped_refuted. Qed.
Print Assumptions C65_mapped_refuted.
(** ... the joiner rules are not applied in transitional mode (xn--ab-m1t); ... *)
Theorem C65_joiners_refuted : exists src l r, c_string src /\ utf8 l src /\ lookup_u8 ucd src IDN2_TRANSITIONAL = Ok r /\
  forall ps r', ~ uts46_to_ascii ucd (Params false true true false true false false) l ps r'.
Proof. exact joiners_refuted. Qed.
Print Assumptions C65_joiners_refuted.
(** ... and empty labels pass ("a..b"). *)
Theorem C65_empty_refuted : exists src l r, c_string src /\ utf8 l src /\ lookup_u8 ucd src 0 = Ok r /\
  forall ps r', ~ uts46_to_ascii ucd (lib_params 0 false true) l ps r'.
Proof. exact empty_refuted. Qed.
Print Assumptions C65_empty_refuted.
(** Without the conditions of [C65_complete]: U+2603 is valid for UTS #46 and refused. *)
Theorem C65_characters_refuted : exists src l ps r rc, c_string src /\ utf8 l src /\
  uts46_to_ascii ucd (lib_params 0 true true) l ps r /\ lookup_u8 ucd src 0 = Fail rc.
Proof. exact snowman_refuted. Qed.
Print Assumptions C65_characters_refuted.
(** Names that normalisation shortens are refused for their length before it. *)
Theorem C65_length_refuted : exists src l ps r rc, c_string src /\ utf8 l src /\
  uts46_to_ascii ucd (lib_params 0 true true) l ps r /\ Forall (idna2008_chars (opt_std3 0)) ps /\ lookup_u8 ucd src 0 = Fail rc.
Proof. exact length_refuted. Qed.
Print Assumptions C65_length_refuted.
