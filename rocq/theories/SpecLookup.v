(** Vocabulary for the properties of the lookup functions, independent of the
    model in Lookup.v. *)
From Verif Require Import Base Uenv DataTypes SpecUtf8 SpecPuny SpecTables SpecLabel SpecNfc.

(** A NUL-terminated string, given without its NUL. *)
Definition c_string (s : list Z) : Prop := Forall (fun b => 0 < b <= 255) s.
Definition ascii_string (s : list Z) : Prop := Forall (fun b => 0 < b < 128) s.

(** Labels separated by dots. *)
Fixpoint join (ls : list (list Z)) : list Z :=
  match ls with
  | [] => []
  | [x] => x
  | x :: r => x ++ 46 :: join r
  end.
(** [dotted ls s]: [ls] are the dot-separated labels of [s]. *)
Definition dotted (ls : list (list Z)) (s : list Z) : Prop :=
  ls <> [] /\ Forall (fun l => ~ In 46 l) ls /\ s = join ls.

(** The options, by their bit in the flag word (idn2.h). *)
Definition opt_nfc (f : Z) : bool := bit f 0.
Definition opt_roundtrip (f : Z) : bool := bit f 1.
Definition opt_transitional (f : Z) : bool := bit f 2.
Definition opt_nontransitional (f : Z) : bool := bit f 3.
Definition opt_unassigned (f : Z) : bool := bit f 4.
Definition opt_std3 (f : Z) : bool := bit f 5.
Definition opt_no_tr46 (f : Z) : bool := bit f 6.
Definition opt_no_roundtrip (f : Z) : bool := bit f 7.

(** Options that contradict each other. *)
Definition bad_flags (f : Z) : Prop :=
  (opt_transitional f = true /\ opt_nontransitional f = true) \/
  (opt_no_tr46 f = true /\ (opt_transitional f = true \/ opt_nontransitional f = true)) \/
  (opt_roundtrip f = true /\ opt_no_roundtrip f = true).

(** UTS 46 section 4, step 1 (Map), for one code point, with the choices of
    the library: STD3-disallowed code points are kept resp. mapped without the
    STD3 option and dropped with it. *)
Definition map1 (transitional std3 : bool) (c : Z) : list Z :=
  match status_of c with
  | Valid => [c]
  | Disallowed => [c]
  | Mapped => mapping_of c
  | Ignored => []
  | Deviation => if transitional then mapping_of c else [c]
  | Std3Valid => if std3 then [] else [c]
  | Std3Mapped => if std3 then [] else mapping_of c
  end.
Definition uts46_map (transitional std3 : bool) (l : list Z) : list Z :=
  flat_map (map1 transitional std3) l.

(** "xn--". *)
Definition xn (s : list Z) : Prop := exists t, s = 120 :: 110 :: 45 :: 45 :: t.

(** ASCII lower-casing. *)
Definition lower (c : Z) : Z := if (65 <=? c) && (c <=? 90) then c + 32 else c.

(** What the conversion makes of one label of the mapped and normalised name:
    an ASCII label is lower-cased, any other becomes "xn--" and a string that
    RFC 3492 decodes to it. *)
Inductive label_result (s : list Z) : list Z -> Prop :=
| lr_ascii : Forall (fun c => c < 128) s -> label_result s (map lower s)
| lr_ace : forall e, Exists (fun c => 128 <= c) s -> rfc_decodes e s -> label_result s (120 :: 110 :: 45 :: 45 :: e).

(** Strings that differ only in the case of ASCII letters. *)
Inductive same_but_case : list Z -> list Z -> Prop :=
| sbc_nil : same_but_case [] []
| sbc_cons : forall a b x y, lower a = lower b -> same_but_case x y -> same_but_case (a :: x) (b :: y).

(** Strings that differ only in the choice of full stop and in code points
    that TR46 ignores. *)
Definition full_stop (c : Z) : Prop := c = 0x2E \/ c = 0x3002 \/ c = 0xFF0E \/ c = 0xFF61.
Inductive same_but_dots : list Z -> list Z -> Prop :=
| sbd_nil : same_but_dots [] []
| sbd_keep : forall c x y, same_but_dots x y -> same_but_dots (c :: x) (c :: y)
| sbd_stop : forall a b x y, full_stop a -> full_stop b -> same_but_dots x y -> same_but_dots (a :: x) (b :: y)
| sbd_ignored_l : forall c x y, status_of c = Ignored -> same_but_dots x y -> same_but_dots (c :: x) y
| sbd_ignored_r : forall c x y, status_of c = Ignored -> same_but_dots x y -> same_but_dots x (c :: y).

(** A name that fits: labels of at most 63 bytes, 253 bytes in all, not
    counting a final dot. *)
Definition fits (s : list Z) : Prop :=
  (forall ls, dotted ls s -> Forall (fun l => zlen l <= 63) ls) /\
  (zlen s <= 253 \/ (zlen s = 254 /\ exists t, s = t ++ [46])).

(** The codes that idn2_lookup_u8 documents for bad names. *)
Definition lookup_errors : list Z :=
  [ IDN2_ENCODING_ERROR; IDN2_NFC; IDN2_PUNYCODE_BAD_INPUT; IDN2_PUNYCODE_BIG_OUTPUT; IDN2_PUNYCODE_OVERFLOW;
    IDN2_TOO_BIG_DOMAIN; IDN2_TOO_BIG_LABEL; IDN2_NOT_NFC; IDN2_2HYPHEN; IDN2_HYPHEN_STARTEND;
    IDN2_LEADING_COMBINING; IDN2_DISALLOWED; IDN2_CONTEXTJ; IDN2_UNASSIGNED; IDN2_BIDI;
    IDN2_INVALID_TRANSITIONAL; IDN2_INVALID_NONTRANSITIONAL; IDN2_ALABEL_ROUNDTRIP_FAILED ].
