(** The text of idn2_to_unicode_44i of lib/decode.c as a whole in the language of CLang.v, with the
    conventions of CUni.v, for an input that is not NULL; C19 has NULL.  CUnicode.v has the
    copy at its end alone. *)
From Coq Require Import String.
From Verif Require Import Base Uenv Utf8 Lookup CLang CLabel CLookup CRegister CUnicode CWrap CUni.
Local Open Scope string_scope.
Local Open Scope list_scope.
Local Open Scope Z_scope.
Local Open Scope c_scope.

Local Notation ret z := (SReturn (int z)).

(** decode.c:261: the size that it asks for. *)
Definition c_44i_size : cfun := mkfun I32 ["malloc"] [("inlen", U64)] []
 (SStore "malloc" 0 (("inlen" + 1) * ECast U64 4);;
  ret IDN2_OK).
(** decode.c:265-284; input_u32 has that size, output_u32 is what idn2_to_unicode_4z4z
    allocates. *)
Definition c_44i : cfun := mkfun I32 ["in"; "input_u32"; "output_u32"; "out"; "outlen"] [("inlen", U64); ("has_out", I32); ("has_outlen", I32)] [("rc", I32); ("len", U64); ("k", U64)]
 (fill "input_u32" 0 "inlen" ("in" @ "k");;
  SStore "input_u32" "inlen" 0;;
  "rc" <- ECall "idn2_to_unicode_4z4z" ["input_u32"] [];;
  when ("rc" != IDN2_OK)
    SReturn "rc";;
  fill "output_u32" 0 (ECall "idn2_to_unicode_4z4z size" ["input_u32"] []) (ECall "idn2_to_unicode_4z4z *output" ["input_u32"] [EVar "k"]);;
  "len" <- ECall "u32_strlen" ["output_u32"] [];;
  when ("has_out" AND "has_outlen")
    fill "out" 0 ("len" < "outlen" @ 0 ? EVar "len" : "outlen" @ 0) ("output_u32" @ "k");;
  when ("has_outlen")
    SStore "outlen" 0 "len";;
  ret IDN2_OK).

(** The functions it calls: [g] is idn2_to_unicode_4z4z. *)
Section Program.
  Variable g : list Z -> Z + list Z.
  Definition uni44_calls : list (string * (cty * (list (cty * Z) -> list carr -> res Z))) :=
    [("u32_strlen", (U64, fun args m => match args, m with [], [(_, l)] => u32_strlen l | _, _ => UB end));
     ("idn2_to_unicode_4z4z", (I32, fun args m => match args, m with [], [(_, l)] => on_string (fun s => rc_sum (g s)) l | _, _ => UB end));
     ("idn2_to_unicode_4z4z size", (U64, fun args m => match args, m with [], [(_, l)] => on_string (fun s => size_sum (g s)) l | _, _ => UB end));
     ("idn2_to_unicode_4z4z *output", (U32, fun args m => match args, m with [(_, k)], [(_, l)] => on_string (fun s => elt_sum (g s) k) l | _, _ => UB end))].
  Definition uni44_program : prog := mkprog (fun f => assoc f uni44_calls) [].
End Program.
Lemma uni44_sequenced : forallb (fun f => all_sequenced (f_body f)) [c_44i_size; c_44i] = true.
Proof. reflexivity. Qed.
