(** Lookup by IDNA 2008 alone (IDN2_NO_TR46) and lookup with UTS #46. *)
From Verif Require Import Base Uenv DataTypes SpecUtf8 SpecTables SpecLabel SpecNfc SpecLookup SpecToAscii.

(** A label as it is shown: an A-label decoded, any other as it is. *)
Inductive appears (s : list Z) : list Z -> Prop :=
| ap_alabel : forall e p, s = ace e -> decodes_to e p -> appears s p
| ap_other : ~ xn s -> appears s s.

(** No hyphen at the start, at the end, nor in the third and fourth places. *)
Definition hyphens_fine (s : list Z) : Prop := forall p, appears s p -> ok_2hyphen p /\ ok_hyphen_startend p.
(** An ACE prefix with an upper-case letter. *)
Definition upper_ace (s : list Z) : Prop := exists a b t, s = a :: b :: 45 :: 45 :: t /\ lower a = 120 /\ lower b = 110 /\ ~ (a = 120 /\ b = 110).
(** A label that is shown with characters outside ASCII is shown without
    characters that only the STD3 rules forbid. *)
Definition unmixed (s : list Z) : Prop := forall p, appears s p -> not_ascii p -> Forall (fun c => ~ is_std3 c) p.
Definition ascii_unmarked (U : uenv) : Prop := forall c, 0 <= c < 128 -> ue_mark U c = false.

(** The name that UTS #46 leaves after mapping and normalising. *)
Definition prepared (U : uenv) (g : Z) (src n : list Z) : Prop :=
  exists l, utf8 l src /\ ~ Exists (fun c => status_of c = Disallowed) l /\ zlen (uts46_map false (opt_std3 g) l) < 255 /\
    ue_nfc U (uts46_map false (opt_std3 g) l) = Some n.
(** Flags for the one and the other, with the check of A-labels. *)
Definition plain_flags (f : Z) : Prop := ~ bad_flags f /\ opt_no_tr46 f = true /\ opt_no_roundtrip f = false.
Definition tr46_flags (g : Z) : Prop := ~ bad_flags g /\ opt_no_tr46 g = false /\ opt_transitional g = false /\ opt_no_roundtrip g = false.
