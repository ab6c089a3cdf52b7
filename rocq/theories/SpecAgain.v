(** Looking up the result of a lookup with other flags. *)
From Verif Require Import Base Uenv DataTypes SpecUtf8 SpecTables SpecLabel SpecLookup SpecToAscii SpecTwoModes.

(** Neither the name nor what its A-labels stand for has characters that only the
    STD3 rules forbid. *)
Definition std3_free (r : list Z) : Prop :=
  Forall (fun c => ~ is_std3 c) r /\ forall ls s p, dotted ls r -> In s ls -> appears s p -> Forall (fun c => ~ is_std3 c) p.
(** What [f] has let through, [g] does too. *)
Definition no_stricter (f g : Z) (r : list Z) : Prop :=
  (opt_transitional f = true -> opt_transitional g = true) /\ (opt_std3 g = true -> opt_std3 f = true \/ std3_free r).
