(** What ToUnicode is supposed to compute, independent of Api.v. *)
From Verif Require Import Base Uenv DataTypes SpecPuny SpecUtf8 SpecTables SpecLookup.

(** [ace_label s t]: [s] is "xn--" in any case, then [t]. *)
Definition ace_label (s t : list Z) : Prop :=
  exists x n, s = x :: n :: 45 :: 45 :: t /\ (x = 120 \/ x = 88) /\ (n = 110 \/ n = 78).

(** The Unicode form of one label: an A-label is decoded (RFC 3492, reading '_'
    as 'a'), any other label is read as UTF-8. *)
Inductive unicode_of (s : list Z) : list Z -> Prop :=
| uo_ace : forall t l, ace_label s t -> Forall ldh_or_underscore t -> rfc_decodes (canon t) l ->
    Forall permitted l -> Exists (fun c => 128 <= c) l -> zlen l <= 63 -> unicode_of s l
| uo_plain : forall l, (~ exists t, ace_label s t) -> utf8 l s -> zlen l <= 63 -> unicode_of s l.

(** The Unicode form of a name. *)
Definition unicode_name (s r : list Z) : Prop :=
  exists ls rs, dotted ls s /\ Forall2 unicode_of ls rs /\ dotted rs r /\ zlen r <= 255.

(** The codes it can fail with; the documentation lists the first three. *)
Definition unicode_errors : list Z :=
  [ IDN2_TOO_BIG_DOMAIN; IDN2_TOO_BIG_LABEL; IDN2_ENCODING_ERROR;
    IDN2_PUNYCODE_BAD_INPUT; IDN2_PUNYCODE_BIG_OUTPUT; IDN2_PUNYCODE_OVERFLOW ].
Definition unicode_errors_documented : list Z :=
  [ IDN2_TOO_BIG_DOMAIN; IDN2_TOO_BIG_LABEL; IDN2_ENCODING_ERROR; IDN2_MALLOC ].

(** An array of 32-bit values without a zero. *)
Definition u32_string (l : list Z) : Prop := Forall (fun c => 0 < c < 4294967296) l.

(** ** The way back *)

(** No label with an A-label prefix other than lower-case "xn--". *)
Definition no_upper_ace (r : list Z) : Prop := forall ls, dotted ls r -> Forall (fun d => ~ xn d -> ~ exists t, ace_label d t) ls.

(** [o]: the name after mapping and normalisation. *)
Definition tr46_prepared (U : uenv) (f : Z) (src o : list Z) : Prop :=
  exists l m, utf8 l src /\ ue_nfc U (uts46_map (opt_transitional f) (opt_std3 f) l) = Some m /\ utf8 m o.

(** No code point that is mapped although it is acceptable in a label: without
    STD3 these are the disallowed_STD3_mapped ones. *)
Definition stable (f : Z) (n : list Z) : Prop :=
  opt_no_tr46 f = true \/ (opt_transitional f = false /\ (opt_std3 f = true \/ Forall (fun c => status_of c <> Std3Mapped) n)).
