(** What a label of a name given to lookup without TR46 stands for. *)
From Verif Require Import Base SpecUtf8 SpecPuny SpecLookup SpecToAscii.

(** The strings that the label [b] stands for. *)
Definition stands_for (f : Z) (b p : list Z) : Prop :=
  (not_ascii b /\ utf8 p b) \/ (opt_no_roundtrip f = false /\ exists e, b = ace e /\ decodes_to e p).
