(** What it means that the C text of idn2_to_unicode_44i returns. *)
From Coq Require Import String.
From Verif Require Import Base CLang CUni44 SpecCPuny SpecCUni.
Local Open Scope string_scope.
Local Open Scope list_scope.
Local Open Scope Z_scope.

Section Spec.
  Variable g : list Z -> Z + list Z.
  Notation P := (uni44_program g).
  (** For [n] elements it asks for [m] bytes. *)
  Definition text_44i_size (n m : Z) : Prop :=
    forall x, returns (fun fuel => run P c_44i_size 0 fuel [(U64, n)] [("malloc", (U64, [x]))]) (0, [("malloc", (U64, [Some m]))]).
  (** On the [zlen l] elements [l], with out and outlen NULL or not, with [out] behind out and [ol]
      behind outlen: it returns [rc] and leaves [out'] and [ol'] there, whatever is behind the
      elements and in the arrays. *)
  Definition text_44i (l : list Z) (has_out has_outlen : bool) (out : list (option Z)) (ol rc : Z) (out' : list (option Z)) (ol' : Z) : Prop :=
    forall rest i32 o32, zlen i32 = zlen l + 1 -> 256 <= zlen o32 -> exists i32' o32',
    returns (fun fuel => run P c_44i 0 fuel [(U64, zlen l); (I32, if has_out then 1 else 0); (I32, if has_outlen then 1 else 0)]
        [("in", (U32, map Some l ++ rest)); ("input_u32", (U32, i32)); ("output_u32", (U32, o32)); ("out", (U32, out)); ("outlen", (U64, [Some ol]))])
      (rc, [("in", (U32, map Some l ++ rest)); ("input_u32", (U32, i32')); ("output_u32", (U32, o32')); ("out", (U32, out')); ("outlen", (U64, [Some ol']))]).
End Spec.
(** [g] is what the text of idn2_to_unicode_4z4z computes. *)
Definition uni4_is (g : list Z -> Z + list Z) : Prop :=
  exists u4 u8 ul from to, unicode_is u4 /\ forall v, ~ In 0 v -> zlen v < 100000000000000000 -> text_4z4z u4 u8 ul from to v (g v).
(** The first [n] of [d] at the front of [out]. *)
Definition first_of (n : nat) (d : list Z) (out : list (option Z)) : list (option Z) := map Some (firstn n d) ++ skipn n out.
