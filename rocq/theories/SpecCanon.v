(** Canonical equivalence (The Unicode Standard 3.7, UAX #15), over the
    Unicode 14 character data of [Ucd]. *)
From Verif Require Import Base DataTypes SpecTables SpecLookup Ucd.

(** The least equivalence under which a character is the same as its canonical
    decomposition and the order of combining marks of different classes does
    not matter. *)
Inductive canon : list Z -> list Z -> Prop :=
| canon_refl : forall l, canon l l
| canon_sym : forall l m, canon l m -> canon m l
| canon_trans : forall l m n, canon l m -> canon m n -> canon l n
| canon_decompose : forall a c b, canon (a ++ c :: b) (a ++ decomp1 c ++ b)
| canon_reorder : forall a c d b, 0 < ccc c -> 0 < ccc d -> ccc c <> ccc d -> canon (a ++ c :: d :: b) (a ++ d :: c :: b).

(** U+0345, the one combining mark that UTS 46 maps to a letter. *)
Definition iota_below : Z := 0x345.
(** No U+0345 stands before a mark that belongs before it. *)
Fixpoint iota_last (l : list Z) : Prop :=
  match l with
  | [] => True
  | c :: r => (c = iota_below -> match r with [] => True | d :: _ => ~ 0 < ccc d < ccc iota_below end) /\ iota_last r
  end.
(** … in the characters of [l] taken apart. *)
Definition iota_in_order (l : list Z) : Prop := iota_last (flat_map decomp1 l).
(** No U+0345 at all. *)
Definition iota_free (l : list Z) : Prop := ~ In iota_below (flat_map decomp1 l).
(** Normalisation form D: taken apart, and the marks put in order. *)
Definition nfd (l : list Z) : list Z := order (flat_map decomp1 l).
(** No character that the STD3 rules are about. *)
Definition std3_free (l : list Z) : Prop := Forall (fun c => status_of c <> Std3Valid /\ status_of c <> Std3Mapped) l.
(** No character disallowed by UTS 46. *)
Definition allowed (l : list Z) : Prop := Forall (fun c => status_of c <> Disallowed) l.
(** Length of the mapped name, before normalisation. *)
Definition mapped_length (f : Z) (l : list Z) : Z := zlen (uts46_map (opt_transitional f) (opt_std3 f) l).
