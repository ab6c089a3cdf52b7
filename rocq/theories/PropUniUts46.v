(** Property C71: ToUnicode of the library and ToUnicode of UTS #46.  The standard is in
    SpecUts46.v and SpecUniUts46.v; [unicode_name] in SpecUnicode.v; [ucd] is the Unicode 14 database of Ucd.v. *)
From Verif Require Import Base Uenv SpecUtf8 SpecPuny SpecLookup SpecToAscii SpecUts46 SpecUniUts46 SpecUnicode Api Ucd LookupExamples Uts46Examples UniUts46.

(** What the standard makes of a name without recording an error, the library makes of the mapped and
    normalised name, under any parameters. *)
Theorem C71_agrees : forall U P l n ps r src, ascii_ace P = false -> utf8 n src -> c_string src -> uts46_to_unicode U P l n ps r ->
  (forall ls s p, dotted ls n -> In (s, p) (combine ls ps) -> (exists e, s = ace e) -> ascii_ldhu p) ->
  Forall (fun p => zlen p <= 63) ps -> zlen r <= 255 -> zlen src < two64 -> unicode_name src r.
Proof. exact uts46_unicode. Qed.
Print Assumptions C71_agrees.
Example C71_case : uts46_to_unicode ucd (lib_params 0 true false) xn_upper' xn_buecher [uml_label; [101;120]] [98;252;99;104;101;114;46;101;120] /\
  utf8 xn_buecher xn_buecher /\ c_string xn_buecher /\ unicode xn_buecher = Ok [98;252;99;104;101;114;46;101;120] /\
  (forall ls s p, dotted ls xn_buecher -> In (s, p) (combine ls [uml_label; [101;120]]) -> (exists e, s = ace e) -> ascii_ldhu p).
Proof. exact case_uni_uts46. Qed.

(** It does not map (U+00DC stays) ... *)
Theorem C71_mapping_refuted : exists src l r ps, c_string src /\ utf8 l src /\ unicode src = Ok r /\
  uts46_to_unicode ucd (lib_params 0 true false) l [252] ps [252] /\ r <> [252].
Proof. exact unicode_no_mapping. Qed.
Print Assumptions C71_mapping_refuted.
(** ... and does not check: U+FFFD passes, and so does its A-label, which the standard refuses under all parameters. *)
Theorem C71_validity_refuted : exists src l r, c_string src /\ utf8 l src /\ unicode src = Ok r /\ forall P n ps r', ~ uts46_to_unicode ucd P l n ps r'.
Proof. exact unicode_no_check. Qed.
Print Assumptions C71_validity_refuted.
Theorem C71_alabel_validity_refuted : exists src l r, c_string src /\ utf8 l src /\ unicode src = Ok r /\ forall P n ps r', ~ uts46_to_unicode ucd P l n ps r'.
Proof. exact unicode_no_check_ace. Qed.
Print Assumptions C71_alabel_validity_refuted.
