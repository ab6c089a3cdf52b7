(** Names that look alike to a reader: upper and lower case, compatibility
    forms, composed and decomposed characters.  Over the Unicode 14 data. *)
From Verif Require Import Base DataTypes SpecTables SpecLookup DataCase Ucd SpecCanon.

Definition from (t : list (Z * list Z)) (c : Z) : list Z := match assoc c t with Some l => l | None => [c] end.
Definition to_lower : Z -> list Z := from case_lower.
Definition to_upper : Z -> list Z := from case_upper.
Definition to_title : Z -> list Z := from case_title.
Definition to_fold : Z -> list Z := from case_fold.
(** Full compatibility decomposition. *)
Definition compat (c : Z) : list Z := match assoc c ucd_compat with Some l => l | None => decomp1 c end.

Inductive variant : Z -> list Z -> Prop :=
| variant_lower : forall c, variant c (to_lower c)
| variant_upper : forall c, variant c (to_upper c)
| variant_title : forall c, variant c (to_title c)
| variant_fold : forall c, variant c (to_fold c)
| variant_canon : forall c, variant c (decomp1 c)
| variant_compat : forall c, variant c (compat c).

(** Dotless i, and without IDN2_TRANSITIONAL sharp s, final sigma and what has
    these as variants. *)
Definition odd (transitional : bool) (c : Z) : bool :=
  (c =? 0x131) || (negb transitional && existsb (Z.eqb c) [0xDF; 0x1E9E; 0x3C2; 0x3F2; 0x1D6D3; 0x1D70D; 0x1D747; 0x1D781; 0x1D7BB]).

(** Replacing characters by variants, and swapping marks of different classes. *)
Inductive alike (transitional std3 : bool) : list Z -> list Z -> Prop :=
| alike_refl : forall l, alike transitional std3 l l
| alike_sym : forall l m, alike transitional std3 l m -> alike transitional std3 m l
| alike_trans : forall l m n, alike transitional std3 l m -> alike transitional std3 m n -> alike transitional std3 l n
| alike_variant : forall a c x b, variant c x -> odd transitional c = false -> allowed (c :: x) -> (std3 = true -> std3_free (c :: x)) ->
    alike transitional std3 (a ++ c :: b) (a ++ x ++ b)
| alike_reorder : forall a c d b, 0 < ccc c -> 0 < ccc d -> ccc c <> ccc d -> c <> iota_below -> d <> iota_below ->
    alike transitional std3 (a ++ c :: d :: b) (a ++ d :: c :: b).

(** Compatibility normal forms. *)
Definition nfkd (l : list Z) : list Z := order (flat_map compat l).
Definition nfkc (l : list Z) : list Z := recompose (nfkd l).
