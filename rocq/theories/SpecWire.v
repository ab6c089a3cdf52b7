(** Names in DNS messages, RFC 1035 sections 2.3.4, 3.1 and 4.1. *)
From Verif Require Import Base SpecLookup.

(** Each label behind a byte with its length, then the root's. *)
Inductive wire : list (list Z) -> list Z -> Prop :=
| w_root : wire [] [0]
| w_label : forall l ls w, 1 <= zlen l <= 63 -> wire ls w -> wire (l :: ls) (zlen l :: l ++ w).

(** [on_wire s w]: the name [s], with or without a final dot, is sent as [w]. *)
Definition on_wire (s w : list Z) : Prop :=
  exists ls, ls <> [] /\ Forall (fun l => ~ In 46 l) ls /\ (s = join ls \/ s = join ls ++ [46]) /\ wire ls w /\ zlen w <= 255.

(** No label is empty but the root's. *)
Definition no_gap (s : list Z) : Prop :=
  exists ls, ls <> [] /\ Forall (fun l => l <> [] /\ ~ In 46 l) ls /\ (s = join ls \/ s = join ls ++ [46]).

(** RFC 4343: servers ignore the case of ASCII letters. *)
Definition same_owner (v w : list Z) : Prop := map lower v = map lower w.
Definition same_but_final_dot (s t : list Z) : Prop := s = t \/ s = t ++ [46] \/ t = s ++ [46].
