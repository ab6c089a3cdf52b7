(** For which names a second, transitional attempt is made after IDNA 2008 has
    failed on a disallowed character. *)
From Verif Require Import Base Uenv DataTypes SpecUtf8 SpecTables SpecLabel SpecNfc SpecLookup SpecToAscii SpecRefusal.
From Verif Require Lookup.
Notation IDN2_NONTRANSITIONAL := Lookup.IDN2_NONTRANSITIONAL.
Notation IDN2_TRANSITIONAL := Lookup.IDN2_TRANSITIONAL.

(** The first label that cannot be converted has, in its Unicode form, a
    character that IDNA 2008 disallows. *)
Definition second_chance (U : uenv) (src : list Z) : Prop :=
  let f := IDN2_NONTRANSITIONAL in
  exists l n a s b ds p,
    utf8 l src /\ zlen (uts46_map false false l) < 255 /\ ue_nfc U (uts46_map false false l) = Some n /\
    dotted (a ++ s :: b) n /\ Forall (passes46 U f) (a ++ s :: b) /\
    Forall2 (tr46_label U f) a ds /\ zlen (join ds) <= 253 /\
    unicode_form f s p /\ ~ ok_disallowed p true.

Definition fallback_accepts (U : uenv) (src r : list Z) : Prop :=
  accepts U IDN2_NONTRANSITIONAL src r \/ (second_chance U src /\ accepts U IDN2_TRANSITIONAL src r).
Definition fallback_refuses (U : uenv) (src : list Z) (rc : Z) : Prop :=
  (refuses U IDN2_NONTRANSITIONAL src rc /\ rc <> IDN2_DISALLOWED) \/
  (refuses U IDN2_NONTRANSITIONAL src IDN2_DISALLOWED /\ refuses U IDN2_TRANSITIONAL src rc).
