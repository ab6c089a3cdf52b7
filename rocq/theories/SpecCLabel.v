(** What it means that the C text of the label tests returns. *)
From Coq Require Import String.
From Verif Require Import Base Uenv CLang CLabel SpecCPuny.
Local Open Scope string_scope.
Local Open Scope list_scope.
Local Open Scope Z_scope.

(** An array of uint32_t that a program can have. *)
Definition array32 (l : list Z) : Prop := Forall (fun c => 0 <= c < two32) l /\ 4 * zlen l < two64.
(** The function [f] of libidn2, called with the array [l] and the other arguments
    [args], comes to an end, with no undefined behaviour on the way, and returns [rc];
    the array is as it was.  The deepest calls are those of _isBidi. *)
Definition c_returns (U : uenv) (f : cfun) (l : list Z) (args : list (cty * Z)) (rc : Z) : Prop :=
  returns (fun n => run (label_program U) f 2 n args [("label", (U32, map Some l))]) (rc, [("label", (U32, map Some l))]).
Definition bytes_return (U : uenv) (f : cfun) (s : list Z) (rc : Z) : Prop :=
  returns (fun n => run (label_program U) f 2 n [(U64, zlen s)] [("src", (U8, map Some s))]) (rc, [("src", (U8, map Some s))]).
(** It does something C11 does not define. *)
Definition c_undefined (U : uenv) (f : cfun) (l : list Z) (args : list (cty * Z)) : Prop :=
  exists N, forall n, (N <= n)%nat -> run (label_program U) f 2 n args [("label", (U32, map Some l))] = UB.
(** So can the normalised label: u32_normalize has allocated it. *)
Definition nfc_fits (U : uenv) (l : list Z) : Prop := forall q, ue_nfc U l = Some q -> 4 * zlen q < two64.
(** The value a test of the model stands for. *)
Definition code (o : out unit) : Z := match o with Ok _ => 0 | Fail rc => rc | _ => 1 end.
