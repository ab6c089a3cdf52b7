(** What it means that the C text of the functions around idn2_to_unicode_8z4z returns. *)
From Coq Require Import String.
From Verif Require Import Base SpecLookup CLang CUni SpecCPuny SpecCRegister SpecCUnicode SpecCWrap.
Local Open Scope string_scope.
Local Open Scope list_scope.
Local Open Scope Z_scope.

Section Spec.
  Variables u4 u8 ul : list Z -> Z + list Z.
  Variables from to : list Z -> option (list Z).
  Notation P := (uni_program u4 u8 ul from to).
  (** idn2_to_unicode_4z4z on the string [l], with output NULL or not; whatever is behind the
      string and in the arrays. *)
  Definition text_4z4z (l : list Z) (r : Z + list Z) : Prop :=
    proper r /\ forall (has : bool) rest i8 o, 4 * (zlen l + 1) <= zlen i8 -> room r o -> exists i8',
    returns (fun fuel => run P c_4z4z 0 fuel [(I32, if has then 1 else 0)] [("input", (U32, map Some (l ++ [0]) ++ rest)); ("input_u8", (U8, i8)); ("output", (U32, o))])
      (code_of r, [("input", (U32, map Some (l ++ [0]) ++ rest)); ("input_u8", (U8, i8')); ("output", (U32, inserted has r o))]).
  (** idn2_to_unicode_8z8z on the string [s]; 256 code points are at most 1024 bytes. *)
  Definition text_8z8z (s : list Z) (r : Z + list Z) : Prop :=
    proper r /\ forall (has : bool) rest o32 o8 o, 256 <= zlen o32 -> 1024 <= zlen o8 -> room r o -> exists o32' o8',
    returns (fun fuel => run P c_8z8z 0 fuel [(I32, if has then 1 else 0)] [("input", (U8, map Some (s ++ [0]) ++ rest)); ("output_u32", (U32, o32)); ("output_u8", (U8, o8)); ("output", (U8, o))])
      (code_of r, [("input", (U8, map Some (s ++ [0]) ++ rest)); ("output_u32", (U32, o32')); ("output_u8", (U8, o8')); ("output", (U8, inserted has r o))]).
  (** idn2_to_unicode_8zlz *)
  Definition text_8zlz (s : list Z) (r : Z + list Z) : Prop :=
    proper r /\ forall (has : bool) rest o8 o, 1024 <= zlen o8 -> room r o -> exists o8',
    returns (fun fuel => run P c_8zlz 0 fuel [(I32, if has then 1 else 0)] [("input", (U8, map Some (s ++ [0]) ++ rest)); ("output_u8", (U8, o8)); ("output", (U8, o))])
      (code_of r, [("input", (U8, map Some (s ++ [0]) ++ rest)); ("output_u8", (U8, o8')); ("output", (U8, inserted has r o))]).
  (** idn2_to_unicode_lzlz *)
  Definition text_lzlz (s : list Z) (r : Z + list Z) : Prop :=
    proper r /\ forall (has : bool) rest i8 o, (forall b, from s = Some b -> zlen b < zlen i8) -> room r o -> exists i8',
    returns (fun fuel => run P c_lzlz 0 fuel [(I32, if has then 1 else 0)] [("input", (U8, map Some (s ++ [0]) ++ rest)); ("input_l8", (U8, i8)); ("output", (U8, o))])
      (code_of r, [("input", (U8, map Some (s ++ [0]) ++ rest)); ("input_l8", (U8, i8')); ("output", (U8, inserted has r o))]).
End Spec.

(** [u4] is what the text of idn2_to_unicode_8z4z computes. *)
Definition unicode_is (u4 : list Z -> Z + list Z) : Prop := forall s, c_string s -> zlen s < 4611686018427387904 -> unicode_text U8 s (u4 s).
(** The functions that the four call are what their own texts compute. *)
Definition uni_has (u4 u8 ul : list Z -> Z + list Z) (from to : list Z -> option (list Z)) : Prop :=
  unicode_is u4 /\ (forall s, c_string s -> zlen s < 4611686018427387904 -> text_8z8z u4 u8 ul from to s (u8 s)) /\
  (forall s, c_string s -> zlen s < 4611686018427387904 -> text_8zlz u4 u8 ul from to s (ul s)).
(** No conversion to the encoding of the locale fills the address space. *)
Definition to_fits (to : list Z -> option (list Z)) : Prop := forall b x, to b = Some x -> zlen x < 4611686018427387904.
