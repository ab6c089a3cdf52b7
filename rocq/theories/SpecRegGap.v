(** What stands between a name that is looked up and a label that is registered. *)
From Verif Require Import Base Uenv DataTypes SpecPuny SpecTables SpecContext SpecBidi SpecLabel SpecLookup.

(** What RFC 5891 section 4.2 asks of a label beyond what its section 5.4 asks:
    no hyphen at either end, the rules for CONTEXTO characters; [strict]: no
    character that UTS #46 disallows for STD3 only. *)
Definition registration_extra (U : uenv) (p : list Z) : Prop :=
  ok_hyphen_startend p /\ ok_contexto_rule U p /\ ok_disallowed p false.
