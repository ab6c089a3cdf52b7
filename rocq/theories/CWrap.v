(** The text of the conversion functions of lib/lookup.c around idn2_lookup_u8 and of
    _idn2_u8_to_u32_nfc of lib/idna.c in the language of CLang.v, with the conventions of
    CLookup.v and CRegister.v.  All for an input that is not NULL; C19 has NULL. *)
From Coq Require Import String.
From Verif Require Import Base Uenv Utf8 Idna Lookup CLang CLabel CLookup CRegister CUnicode.
Local Open Scope string_scope.
Local Open Scope list_scope.
Local Open Scope Z_scope.
Local Open Scope c_scope.

Local Notation ret z := (SReturn (int z)).

(** idna.c:87-121.  p = tmp is a copy of what tmp points to, and *out = p of what p points to. *)
Definition c_nfc : cfun := mkfun I32 ["src"; "p"; "tmp"; "out"; "outlen"] [("srclen", U64); ("nfc", I32)] [("plen", U64); ("tmplen", U64); ("k", U64)]
 (when (ECall "u8_to_u32" ["src"] [EVar "srclen"] == int 0 - int 1)
    ret IDN2_ENCODING_ERROR;;
  fill "p" 0 (ECast U64 (ECall "u8_to_u32" ["src"] [EVar "srclen"])) (ECall "u8_to_u32 result" ["src"] [EVar "srclen"; EVar "k"]);;
  "plen" <- ECall "u8_to_u32" ["src"] [EVar "srclen"];;
  when ("nfc" AND ! (ECall "_isNFC" ["p"] [EVar "plen"]))
    (when (ECall "u32_normalize" ["p"] [EVar "plen"] == int 0 - int 1)
       ret IDN2_NFC;;
     fill "tmp" 0 (ECast U64 (ECall "u32_normalize" ["p"] [EVar "plen"])) (ECall "u32_normalize result" ["p"] [EVar "plen"; EVar "k"]);;
     "tmplen" <- ECall "u32_normalize" ["p"] [EVar "plen"];;
     fill "p" 0 "tmplen" ("tmp" @ "k");;
     "plen" <- "tmplen");;
  fill "out" 0 "plen" ("p" @ "k");;
  SStore "outlen" 0 "plen";;
  ret IDN2_OK).

(** rc = idn2_lookup_u8 (input, output, flags) and the return of rc; the callee stores to
    *output if output is not NULL, [has]. *)
Definition ask (input output has : string) (flags : expr) : stmt :=
  ("rc" <- ECall "idn2_lookup_u8" [input] [flags];;
   when ("rc" == IDN2_OK)
     (when (has)
        fill output 0 (ECall "idn2_lookup_u8 size" [input] [flags]) (ECall "idn2_lookup_u8 *lookupname" [input] [flags; EVar "k"]));;
   SReturn "rc").

(** lookup.c:659-684 *)
Definition c_lookup_ul : cfun := mkfun I32 ["src"; "utf8src"; "lookupname"] [("flags", I32); ("has_lookupname", I32)] [("rc", I32); ("k", U64)]
 (when (ECall "u8_strconv_from_encoding" ["src"] [] == int 0 - int 1)
    ret IDN2_ICONV_FAIL;;
  fill "utf8src" 0 (ECast U64 (ECall "u8_strconv_from_encoding" ["src"] [])) (ECall "u8_strconv_from_encoding result" ["src"] [EVar "k"]);;
  ask "utf8src" "lookupname" "has_lookupname" ("flags" .| IDN2_NFC_INPUT)).

(** lookup.c:799-803: the size that idn2_to_ascii_4i2 asks for. *)
Definition c_4i2_size : cfun := mkfun I32 ["malloc"] [("inlen", U64)] []
 (SStore "malloc" 0 (("inlen" + 1) * ECast U64 4);;
  ret IDN2_OK).
(** lookup.c:804-832: the rest of it; input_u32 has that size. *)
Definition c_4i2 : cfun := mkfun I32 ["input"; "input_u32"; "input_u8"; "output"] [("inlen", U64); ("flags", I32); ("has_output", I32)] [("rc", I32); ("k", U64)]
 (fill "input_u32" 0 "inlen" ("input" @ "k");;
  SStore "input_u32" "inlen" 0;;
  when (ECall "u32_to_u8" ["input_u32"] [int 0; "inlen" + 1] == int 0 - int 1)
    ret IDN2_ENCODING_ERROR;;
  fill "input_u8" 0 (ECast U64 (ECall "u32_to_u8" ["input_u32"] [int 0; "inlen" + 1])) (ECall "u32_to_u8 result" ["input_u32"] [int 0; "inlen" + 1; EVar "k"]);;
  ask "input_u8" "output" "has_output" "flags").

(** lookup.c:853-880 *)
Definition c_4z : cfun := mkfun I32 ["input"; "input_u8"; "output"] [("flags", I32); ("has_output", I32)] [("rc", I32); ("k", U64)]
 (when (ECall "u32_to_u8" ["input"] [int 0; ECall "u32_strlen" ["input"] [] + 1] == int 0 - int 1)
    ret IDN2_ENCODING_ERROR;;
  fill "input_u8" 0 (ECast U64 (ECall "u32_to_u8" ["input"] [int 0; ECall "u32_strlen" ["input"] [] + 1]))
    (ECall "u32_to_u8 result" ["input"] [int 0; ECall "u32_strlen" ["input"] [] + 1; EVar "k"]);;
  ask "input_u8" "output" "has_output" "flags").

(** lookup.c:723-752; "out" is the array that idn2_to_ascii_4i2 (input, inlen, &out, flags) gives. *)
Definition c_4i : cfun := mkfun I32 ["input"; "out"; "output"] [("inlen", U64); ("flags", I32); ("has_output", I32)] [("rc", I32); ("len", U64); ("k", U64)]
 ("rc" <- ECall "idn2_to_ascii_4i2" ["input"] [EVar "inlen"; EVar "flags"];;
  when ("rc" == IDN2_OK)
    (fill "out" 0 (ECall "idn2_to_ascii_4i2 size" ["input"] [EVar "inlen"; EVar "flags"]) (ECall "idn2_to_ascii_4i2 *output" ["input"] [EVar "inlen"; EVar "flags"; EVar "k"]);;
     "len" <- ECall "strlen" ["out"] [];;
     test ("len" > 63)
       "rc" <- IDN2_TOO_BIG_DOMAIN
     else when ("has_output")
       fill "output" 0 "len" ("out" @ "k"));;
  SReturn "rc").

(** The functions these call: [look] is idn2_lookup_u8, [four] idn2_to_ascii_4i2, [from] the
    conversion from the encoding of the locale. *)
Section Program.
  Variable U : uenv.
  Variables look four : list Z -> Z -> Z + list Z.
  Variable from : list Z -> option (list Z).
  Definition size_or_null (o : option (list Z)) : res Z := Val (match o with Some a => zlen a | None => -1 end).
  Definition element (o : option (list Z)) (k : Z) : res Z := match o with Some a => cell (map Some a) k | None => UB end.
  Definition rc_sum (r : Z + list Z) : res Z := Val (match r with inl rc => rc | inr _ => 0 end).
  Definition size_sum (r : Z + list Z) : res Z := match r with inr t => Val (zlen (t ++ [0])) | inl _ => UB end.
  Definition elt_sum (r : Z + list Z) (k : Z) : res Z := match r with inr t => cell (map Some (t ++ [0])) k | inl _ => UB end.
  Definition with_nul (o : option (list Z)) : option (list Z) := match o with Some a => Some (a ++ [0]) | None => None end.
  Definition wrap_calls : list (string * (cty * (list (cty * Z) -> list carr -> res Z))) :=
    [("u8_to_u32", (I64, fun args m => match args, m with [(_, n)], [(_, l)] => on_part (fun s => size_or_null (u8_to_u32 s)) 0 n l | _, _ => UB end));
     ("u8_to_u32 result", (U32, fun args m => match args, m with [(_, n); (_, k)], [(_, l)] => on_part (fun s => element (u8_to_u32 s) k) 0 n l | _, _ => UB end));
     ("_isNFC", (I32, fun args m => match args, m with [(_, n)], [(_, l)] => on_part (fun s => match isNFC U s with Ok v => Val v | _ => UB end) 0 n l | _, _ => UB end));
     ("u32_normalize", (I64, fun args m => match args, m with [(_, n)], [(_, l)] => on_part (fun s => size_or_null (ue_nfc U s)) 0 n l | _, _ => UB end));
     ("u32_normalize result", (U32, fun args m => match args, m with [(_, n); (_, k)], [(_, l)] => on_part (fun s => element (ue_nfc U s) k) 0 n l | _, _ => UB end));
     ("u32_to_u8", (I64, fun args m => match args, m with [(_, p); (_, n)], [(_, l)] => on_part (fun s => size_or_null (u32_to_u8 s)) p n l | _, _ => UB end));
     ("u32_to_u8 result", (U8, fun args m => match args, m with [(_, p); (_, n); (_, k)], [(_, l)] => on_part (fun s => element (u32_to_u8 s) k) p n l | _, _ => UB end));
     ("u32_strlen", (U64, fun args m => match args, m with [], [(_, l)] => u32_strlen l | _, _ => UB end));
     ("strlen", (U64, fun args m => match args, m with [], [(_, l)] => rbind (cstr l) (fun s => Val (zlen s)) | _, _ => UB end));
     ("u8_strconv_from_encoding", (I64, fun args m => match args, m with [], [(_, l)] => rbind (cstr l) (fun s => size_or_null (with_nul (from s))) | _, _ => UB end));
     ("u8_strconv_from_encoding result", (U8, fun args m => match args, m with [(_, k)], [(_, l)] => rbind (cstr l) (fun s => element (with_nul (from s)) k) | _, _ => UB end));
     ("idn2_lookup_u8", (I32, fun args m => match args, m with [(_, f)], [(_, l)] => rbind (cstr l) (fun s => rc_sum (look s f)) | _, _ => UB end));
     ("idn2_lookup_u8 size", (U64, fun args m => match args, m with [(_, f)], [(_, l)] => rbind (cstr l) (fun s => size_sum (look s f)) | _, _ => UB end));
     ("idn2_lookup_u8 *lookupname", (U8, fun args m => match args, m with [(_, f); (_, k)], [(_, l)] => rbind (cstr l) (fun s => elt_sum (look s f) k) | _, _ => UB end));
     ("idn2_to_ascii_4i2", (I32, fun args m => match args, m with [(_, n); (_, f)], [(_, l)] => on_part (fun s => rc_sum (four s f)) 0 n l | _, _ => UB end));
     ("idn2_to_ascii_4i2 size", (U64, fun args m => match args, m with [(_, n); (_, f)], [(_, l)] => on_part (fun s => size_sum (four s f)) 0 n l | _, _ => UB end));
     ("idn2_to_ascii_4i2 *output", (U8, fun args m => match args, m with [(_, n); (_, f); (_, k)], [(_, l)] => on_part (fun s => elt_sum (four s f) k) 0 n l | _, _ => UB end))].
  Definition wrap_program : prog := mkprog (fun f => assoc f wrap_calls) [].
End Program.
Lemma wrap_sequenced : forallb (fun f => all_sequenced (f_body f)) [c_nfc; c_lookup_ul; c_4i2_size; c_4i2; c_4z; c_4i] = true.
Proof. reflexivity. Qed.
