(** The C library's bsearch, as called in tables.c:58-61 and
    tr46map.c:109-123,156-159.  Trusted external code; this is the textbook
    algorithm of glibc's bits/stdlib-bsearch.h: half-open window [lo,hi), probe
    the middle.  [cmp i] is the result of the caller's comparison function on
    the key and element [i]. *)
From Verif Require Import Base.

Fixpoint bsearch_loop (fuel : nat) (cmp : Z -> out Z) (lo hi : Z) : out (option Z) :=
  match fuel with
  | O => NoFuel
  | S fuel =>
      if lo <? hi then
        let idx := (lo + hi) / 2 in
        let* r := cmp idx in
        if r <? 0 then bsearch_loop fuel cmp lo idx
        else if 0 <? r then bsearch_loop fuel cmp (idx + 1) hi
        else Ok (Some idx)
      else Ok None
  end.

Definition bsearch (cmp : Z -> out Z) (n : Z) : out (option Z) :=
  bsearch_loop (S (Z.to_nat n)) cmp 0 n.
