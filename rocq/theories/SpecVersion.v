(** Version strings and their order. *)
From Verif Require Import Base.

Definition digit (c : Z) : Prop := 48 <= c <= 57.

(** [numeral d n]: [d] is [n] in decimal, without leading zeroes. *)
Inductive numeral : list Z -> Z -> Prop :=
| nu_zero : numeral [48] 0
| nu_one : forall c, 49 <= c <= 57 -> numeral [c] (c - 48)
| nu_more : forall d n c, numeral d n -> 0 < n -> digit c -> numeral (d ++ [c]) (10 * n + (c - 48)).

(** [release s v]: [s] is a version such as 2.3.2, [v] its numbers. *)
Inductive release : list Z -> list Z -> Prop :=
| re_one : forall d n, numeral d n -> release d [n]
| re_more : forall d n s v, numeral d n -> release s v -> release (d ++ 46 :: s) (n :: v).

(** Component-wise order; a version comes before its extensions. *)
Inductive not_newer : list Z -> list Z -> Prop :=
| nn_end : forall v, not_newer [] v
| nn_less : forall a b v w, a < b -> not_newer (a :: v) (b :: w)
| nn_same : forall a v w, not_newer v w -> not_newer (a :: v) (a :: w).

(** A C string. *)
Definition plain (s : list Z) : Prop := Forall (fun c => 0 < c < 256) s.
