(** What registration is supposed to do (RFC 5891 section 4), independent of Register.v. *)
From Verif Require Import Base Uenv DataTypes SpecPuny SpecUtf8 SpecTables SpecBidi SpecContext SpecLabel SpecNfc SpecLookup.

Definition lower_ldh (c : Z) : Prop := 97 <= c <= 122 \/ 48 <= c <= 57 \/ c = 45.

(** [a] is the A-label of the Unicode label [l]: lower-case letters, digits and
    hyphens, at most 63 of them, "xn--" and Punycode. *)
Definition a_label (l a : list Z) : Prop :=
  Forall scalar l /\ Exists (fun c => 128 <= c) l /\
  exists t, a = 120 :: 110 :: 45 :: 45 :: t /\ Forall lower_ldh t /\ zlen a <= 63 /\ rfc_decodes t l.

(** The tests of RFC 5891 sections 4.2.1-4.2.3 (Bidi as implemented, see SpecBidi.v). *)
Record registrable (U : uenv) (l : list Z) : Prop := {
  reg_nfc : ok_nfc U l;
  reg_2hyphen : ok_2hyphen l;
  reg_hyphen : ok_hyphen_startend l;
  reg_leading : ok_leading U l;
  reg_disallowed : ok_disallowed l false;
  reg_contextj : ok_contextj_rule U l;
  reg_contexto : ok_contexto_rule U l;
  reg_unassigned : ok_no l UNASSIGNED;
  reg_bidi : ok_bidi U l
}.

(** Normalisation produces no string of lower-case letters, digits and hyphens
    from any other string. *)
Definition nfc_no_ldh (U : uenv) : Prop := forall l m, ue_nfc U l = Some m -> Forall lower_ldh m -> l = m.

(** The name actually tested: normalised on request. *)
Definition reg_normal (U : uenv) (f : Z) (l m : list Z) : Prop :=
  if opt_nfc f then ue_nfc U l = Some m else m = l.

(** The codes registration can fail with (locale functions: also IDN2_ICONV_FAIL). *)
Definition register_errors : list Z :=
  [ IDN2_TOO_BIG_LABEL; IDN2_INVALID_ALABEL; IDN2_UALABEL_MISMATCH; IDN2_ENCODING_ERROR; IDN2_NFC;
    IDN2_NOT_NFC; IDN2_2HYPHEN; IDN2_HYPHEN_STARTEND; IDN2_LEADING_COMBINING; IDN2_DISALLOWED; IDN2_CONTEXTJ;
    IDN2_CONTEXTO; IDN2_UNASSIGNED; IDN2_BIDI;
    IDN2_PUNYCODE_BAD_INPUT; IDN2_PUNYCODE_BIG_OUTPUT; IDN2_PUNYCODE_OVERFLOW ].

(** [u] may be registered with the ASCII form [a]: the label passes the tests,
    and [a] is its A-label or, for a letter-digit-hyphen label, itself. *)
Definition reg_pair (U : uenv) (u a : list Z) : Prop :=
  exists l, utf8 l u /\ registrable U l /\ (a_label l a \/ (Forall lower_ldh l /\ a = u /\ zlen u <= 63)).
