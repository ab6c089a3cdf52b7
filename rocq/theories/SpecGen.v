(** Data files for which the table generator is meant: what its input may be. *)
From Verif Require Import Base DataTypes.

(** The flag for a status, lib/tr46map.h:35-41. *)
Definition tr46_flag (s : status) : Z :=
  match s with
  | Valid => 1 | Mapped => 2 | Ignored => 4 | Deviation => 8 | Disallowed => 16 | Std3Mapped => 32 | Std3Valid => 64
  end.

Definition within (c : Z) (r : row) : Prop := r_lo r <= c <= r_hi r.
Definition cp32 (c : Z) : Prop := 0 <= c < 2 ^ 32.
Definition row_ok (r : row) : Prop := 0 <= r_lo r /\ r_hi r <= 0x10ffff /\ Forall cp32 (r_map r).

(** The three tables are for 1, 2 and 3 byte code points.  No range lies in two
    of them; nor do two neighbouring ranges which differ in nothing. *)
Definition bounds : list Z := [0x100; 0x10000].
Definition split_at (rows : list row) (b : Z) : Prop :=
  (forall r, In r rows -> ~ (r_lo r < b <= r_hi r)) /\
  (forall r r', In r rows -> In r' rows -> r_hi r = b - 1 -> r_lo r' = b ->
     r_map r = [] -> r_map r' = [] -> r_status r <> r_status r').

(** Two rows of DerivedNormalizationProps.txt, wherever they stand, are apart. *)
Definition qrows_apart (qs : list qrow) : Prop :=
  Forall (fun r => 0 <= q_lo r) qs /\
  ForallOrdPairs (fun r r' => q_hi r < q_lo r' \/ q_hi r' < q_lo r) qs.

Definition in_qrow (c : Z) (r : qrow) : Prop := q_lo r <= c <= q_hi r.
