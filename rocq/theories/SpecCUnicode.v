(** What it means that the C text of decode.c returns. *)
From Coq Require Import String.
From Verif Require Import Base CLang CLookup CUnicode SpecCPuny.
Local Open Scope string_scope.
Local Open Scope list_scope.
Local Open Scope Z_scope.

(** idn2_to_unicode_8z4z on the string of the bytes [s], with output NULL or not: the code,
    what is in out_u32 then, and how many elements of it u32_cpy_alloc is to copy. *)
Definition unicode_returns (ch : cty) (s : list Z) (output : bool) (u : list (option Z)) (rc : Z) (out u' : list (option Z)) (n : option Z) : Prop :=
  let input := (ch, map Some (map (conv ch) s ++ [0])) in
  returns (fun fuel => run unicode_program c_to_unicode 0 fuel [(I32, if output then 1 else 0)]
      [("input", input); ("out_u32", (U32, repeat None 256)); ("label_u32", (U32, u)); ("u32_cpy_alloc", (U64, [None]))])
    (rc, [("input", input); ("out_u32", (U32, out)); ("label_u32", (U32, u')); ("u32_cpy_alloc", (U64, [n]))]).
(** It fails with a code, or gives a string; whatever label_u32 held, and in the same way
    with and without output. *)
Definition unicode_text (ch : cty) (s : list Z) (r : Z + list Z) : Prop :=
  forall u, zlen u = 63 ->
  match r with
  | inl rc => rc <> 0 /\ forall output, exists out u', unicode_returns ch s output u rc out u' None
  | inr d => (exists rest u', unicode_returns ch s true u 0 (map Some (d ++ [0]) ++ rest) u' (Some (zlen d + 1))) /\ (exists rest u', unicode_returns ch s false u 0 (map Some d ++ rest) u' None)
  end.

(** idn2_to_unicode_44i with the result [d]: what is in out and *outlen then. *)
Definition copy_returns (d rest : list Z) (has_out has_outlen : bool) (out : list (option Z)) (outlen : Z) (out' : list (option Z)) (outlen' : Z) : Prop :=
  let d0 := (U32, map Some (d ++ 0 :: rest)) in
  returns (fun fuel => run unicode_program c_44i_copy 0 fuel [(I32, if has_out then 1 else 0); (I32, if has_outlen then 1 else 0)] [("output_u32", d0); ("out", (U32, out)); ("outlen", (U64, [Some outlen]))])
    (0, [("output_u32", d0); ("out", (U32, out')); ("outlen", (U64, [Some outlen']))]).
