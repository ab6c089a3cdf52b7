(** The text of the conversion functions of lib/decode.c around idn2_to_unicode_8z4z in the
    language of CLang.v, with the conventions of CWrap.v.  All for an input that is not NULL; C19
    has NULL. *)
From Coq Require Import String.
From Verif Require Import Base Uenv Utf8 Lookup CLang CLabel CLookup CRegister CUnicode CWrap.
Local Open Scope string_scope.
Local Open Scope list_scope.
Local Open Scope Z_scope.
Local Open Scope c_scope.

Local Notation ret z := (SReturn (int z)).

(** rc = callee (input, output, flags) and the return of rc; the callee stores to *output if
    output is not NULL. *)
Definition hand (callee size elt input : string) : stmt :=
  ("rc" <- ECall callee [input] [];;
   when ("rc" == IDN2_OK)
     (when ("has_output")
        fill "output" 0 (ECall size [input] []) (ECall elt [input] [EVar "k"]));;
   SReturn "rc").

(** decode.c:196-219.  *output = output_u32 and the call that gives output_u32 are one: what
    idn2_to_unicode_8z4z gives is copied to *output if output is not NULL. *)
Definition c_4z4z : cfun := mkfun I32 ["input"; "input_u8"; "output"] [("has_output", I32)] [("rc", I32); ("k", U64)]
 (when (ECall "u32_to_u8" ["input"] [int 0; ECall "u32_strlen" ["input"] [] + 1] == int 0 - int 1)
    ret IDN2_ENCODING_ERROR;;
  fill "input_u8" 0 (ECast U64 (ECall "u32_to_u8" ["input"] [int 0; ECall "u32_strlen" ["input"] [] + 1]))
    (ECall "u32_to_u8 result" ["input"] [int 0; ECall "u32_strlen" ["input"] [] + 1; EVar "k"]);;
  hand "idn2_to_unicode_8z4z" "idn2_to_unicode_8z4z size" "idn2_to_unicode_8z4z *output" "input_u8").

(** decode.c:313-335 *)
Definition c_8z8z : cfun := mkfun I32 ["input"; "output_u32"; "output_u8"; "output"] [("has_output", I32)] [("rc", I32); ("length", U64); ("k", U64)]
 ("rc" <- ECall "idn2_to_unicode_8z4z" ["input"] [];;
  when ("rc" != IDN2_OK)
    SReturn "rc";;
  fill "output_u32" 0 (ECall "idn2_to_unicode_8z4z size" ["input"] []) (ECall "idn2_to_unicode_8z4z *output" ["input"] [EVar "k"]);;
  when (ECall "u32_to_u8" ["output_u32"] [int 0; ECall "u32_strlen" ["output_u32"] [] + 1] == int 0 - int 1)
    ret IDN2_ENCODING_ERROR;;
  "length" <- ECall "u32_to_u8" ["output_u32"] [int 0; ECall "u32_strlen" ["output_u32"] [] + 1];;
  fill "output_u8" 0 "length" (ECall "u32_to_u8 result" ["output_u32"] [int 0; ECall "u32_strlen" ["output_u32"] [] + 1; EVar "k"]);;
  when ("has_output")
    fill "output" 0 "length" ("output_u8" @ "k");;
  ret IDN2_OK).

(** decode.c:365-398; output_l8 is *output. *)
Definition c_8zlz : cfun := mkfun I32 ["input"; "output_u8"; "output"] [("has_output", I32)] [("rc", I32); ("k", U64)]
 ("rc" <- ECall "idn2_to_unicode_8z8z" ["input"] [];;
  when ("rc" != IDN2_OK)
    SReturn "rc";;
  fill "output_u8" 0 (ECall "idn2_to_unicode_8z8z size" ["input"] []) (ECall "idn2_to_unicode_8z8z *output" ["input"] [EVar "k"]);;
  test (ECall "u8_strconv_to_encoding" ["output_u8"] [] == int 0 - int 1)
    "rc" <- IDN2_ENCODING_ERROR
  else
    (when ("has_output")
       fill "output" 0 (ECast U64 (ECall "u8_strconv_to_encoding" ["output_u8"] [])) (ECall "u8_strconv_to_encoding result" ["output_u8"] [EVar "k"]);;
     "rc" <- IDN2_OK);;
  SReturn "rc").

(** decode.c:434-448 *)
Definition c_lzlz : cfun := mkfun I32 ["input"; "input_l8"; "output"] [("has_output", I32)] [("rc", I32); ("k", U64)]
 (when (ECall "u8_strconv_from_encoding" ["input"] [] == int 0 - int 1)
    ret IDN2_ICONV_FAIL;;
  fill "input_l8" 0 (ECast U64 (ECall "u8_strconv_from_encoding" ["input"] [])) (ECall "u8_strconv_from_encoding result" ["input"] [EVar "k"]);;
  hand "idn2_to_unicode_8zlz" "idn2_to_unicode_8zlz size" "idn2_to_unicode_8zlz *output" "input_l8").

(** The functions these call: [u4] is idn2_to_unicode_8z4z, [u8] idn2_to_unicode_8z8z, [ul]
    idn2_to_unicode_8zlz, [from] and [to] convert from and to the encoding of the locale. *)
Section Program.
  Variables u4 u8 ul : list Z -> Z + list Z.
  Variables from to : list Z -> option (list Z).
  Definition on_string (g : list Z -> res Z) (l : list (option Z)) : res Z := rbind (cstr l) g.
  Definition uni_calls : list (string * (cty * (list (cty * Z) -> list carr -> res Z))) :=
    [("u32_to_u8", (I64, fun args m => match args, m with [(_, p); (_, n)], [(_, l)] => on_part (fun s => size_or_null (u32_to_u8 s)) p n l | _, _ => UB end));
     ("u32_to_u8 result", (U8, fun args m => match args, m with [(_, p); (_, n); (_, k)], [(_, l)] => on_part (fun s => element (u32_to_u8 s) k) p n l | _, _ => UB end));
     ("u32_strlen", (U64, fun args m => match args, m with [], [(_, l)] => u32_strlen l | _, _ => UB end));
     ("u8_strconv_from_encoding", (I64, fun args m => match args, m with [], [(_, l)] => on_string (fun s => size_or_null (with_nul (from s))) l | _, _ => UB end));
     ("u8_strconv_from_encoding result", (U8, fun args m => match args, m with [(_, k)], [(_, l)] => on_string (fun s => element (with_nul (from s)) k) l | _, _ => UB end));
     ("u8_strconv_to_encoding", (I64, fun args m => match args, m with [], [(_, l)] => on_string (fun s => size_or_null (with_nul (to s))) l | _, _ => UB end));
     ("u8_strconv_to_encoding result", (U8, fun args m => match args, m with [(_, k)], [(_, l)] => on_string (fun s => element (with_nul (to s)) k) l | _, _ => UB end));
     ("idn2_to_unicode_8z4z", (I32, fun args m => match args, m with [], [(_, l)] => on_string (fun s => rc_sum (u4 s)) l | _, _ => UB end));
     ("idn2_to_unicode_8z4z size", (U64, fun args m => match args, m with [], [(_, l)] => on_string (fun s => size_sum (u4 s)) l | _, _ => UB end));
     ("idn2_to_unicode_8z4z *output", (U32, fun args m => match args, m with [(_, k)], [(_, l)] => on_string (fun s => elt_sum (u4 s) k) l | _, _ => UB end));
     ("idn2_to_unicode_8z8z", (I32, fun args m => match args, m with [], [(_, l)] => on_string (fun s => rc_sum (u8 s)) l | _, _ => UB end));
     ("idn2_to_unicode_8z8z size", (U64, fun args m => match args, m with [], [(_, l)] => on_string (fun s => size_sum (u8 s)) l | _, _ => UB end));
     ("idn2_to_unicode_8z8z *output", (U8, fun args m => match args, m with [(_, k)], [(_, l)] => on_string (fun s => elt_sum (u8 s) k) l | _, _ => UB end));
     ("idn2_to_unicode_8zlz", (I32, fun args m => match args, m with [], [(_, l)] => on_string (fun s => rc_sum (ul s)) l | _, _ => UB end));
     ("idn2_to_unicode_8zlz size", (U64, fun args m => match args, m with [], [(_, l)] => on_string (fun s => size_sum (ul s)) l | _, _ => UB end));
     ("idn2_to_unicode_8zlz *output", (U8, fun args m => match args, m with [(_, k)], [(_, l)] => on_string (fun s => elt_sum (ul s) k) l | _, _ => UB end))].
  Definition uni_program : prog := mkprog (fun f => assoc f uni_calls) [].
End Program.
Lemma uni_sequenced : forallb (fun f => all_sequenced (f_body f)) [c_4z4z; c_8z8z; c_8zlz; c_lzlz] = true.
Proof. reflexivity. Qed.
