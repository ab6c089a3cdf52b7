(** Domains below others. *)
From Verif Require Import Base.

(** [a] is a domain below [b]: it ends in a dot and [b].  Bytes, or the code
    points of a displayed name. *)
Definition below (a b : list Z) : Prop := exists p, a = p ++ 46 :: b.
