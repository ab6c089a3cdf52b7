(** The text of lib/decode.c in the language of CLang.v, with the conventions of
    CLookup.v: a call that fills an array is a loop that stores what the function writes. *)
From Coq Require Import String.
From Verif Require Import Base Utf8 Puny CLang CLabel CLookup.
Local Open Scope string_scope.
Local Open Scope list_scope.
Local Open Scope Z_scope.
Local Open Scope c_scope.

Local Notation ret z := (SReturn (int z)).

(** decode.c:72-158: idn2_to_unicode_8z4z for input != NULL, up to the allocation of the
    result by u32_cpy_alloc (out_u32, n); "output" is output != NULL.  "e" and "s" are
    pointers into input.  label_u32 and what u8_to_u32 allocates live for one turn of the
    loop; here label_u32 keeps what the last turn left in it.  free is left out. *)
Definition c_to_unicode : cfun := mkfun I32 ["input"; "out_u32"; "label_u32"; "u32_cpy_alloc"] [("output", I32)]
 [("rc", I32); ("out_len", U64); ("e", U64); ("s", U64); ("label_len", U64); ("k", U64)]
 ("out_len" <- 0;;
  for_ ("e" <- EAsg "s" 0; "input" @ "e"; "s" <- "e")
    ("label_len" <- 63;;
     SLoop ("input" @ "e" AND "input" @ "e" != 46) SSkip
       (SExp (EPost "e"));;
     test (diff "e" "s" >= 4 AND ("input" @ ("s" + 0) == 120 OR "input" @ ("s" + 0) == 88) AND ("input" @ ("s" + 1) == 110 OR "input" @ ("s" + 1) == 78) AND
           "input" @ ("s" + 2) == 45 AND "input" @ ("s" + 3) == 45)
       ("s" += 4;;
        "rc" <- ECall "punycode_decode" ["input"; "label_u32"] [EVar "s"; diff "e" "s"; EVar "label_len"];;
        when ("rc")
          SReturn "rc";;
        fill "label_u32" 0 (ECall "punycode_decode *output_length" ["input"; "label_u32"] [EVar "s"; diff "e" "s"; EVar "label_len"])
          (ECall "punycode_decode output" ["input"; "label_u32"] [EVar "s"; diff "e" "s"; EVar "label_len"; EVar "k"]);;
        "label_len" <- ECall "punycode_decode *output_length" ["input"; "label_u32"] [EVar "s"; diff "e" "s"; EVar "label_len"];;
        when ("out_len" + "label_len" + ("input" @ "e" == 46) > 255)
          ret IDN2_TOO_BIG_DOMAIN;;
        fill "out_u32" "out_len" "label_len" ("label_u32" @ "k"))
     else
       (when (ECall "u8_to_u32" ["input"] [EVar "s"; diff "e" "s"] == int 0 - int 1)
          ret IDN2_ENCODING_ERROR;;
        "label_len" <- ECall "u8_to_u32" ["input"] [EVar "s"; diff "e" "s"];;
        when ("label_len" > 63)
          ret IDN2_TOO_BIG_LABEL;;
        when ("out_len" + "label_len" + ("input" @ "e" == 46) > 255)
          ret IDN2_TOO_BIG_DOMAIN;;
        fill "out_u32" "out_len" "label_len" (ECall "u8_to_u32 result" ["input"] [EVar "s"; diff "e" "s"; EVar "k"]));;
     "out_len" += "label_len";;
     when ("input" @ "e")
       (SStore "out_u32" (EPost "out_len") 46;;
        SExp (EPost "e")));;
  when ("output")
    (SStore "out_u32" "out_len" 0;;
     SStore "u32_cpy_alloc" 0 ("out_len" + 1));;
  ret IDN2_OK).

(** decode.c:273-281: idn2_to_unicode_44i after idn2_to_unicode_4z4z gave output_u32;
    "has_out" and "has_outlen" are out != NULL and outlen != NULL. *)
Definition c_44i_copy : cfun := mkfun I32 ["output_u32"; "out"; "outlen"] [("has_out", I32); ("has_outlen", I32)] [("len", U64); ("k", U64)]
 ("len" <- ECall "u32_strlen" ["output_u32"] [];;
  when ("has_out" AND "has_outlen")
    fill "out" 0 ("len" < "outlen" @ 0 ? EVar "len" : "outlen" @ 0) ("output_u32" @ "k");;
  when ("has_outlen")
    SStore "outlen" 0 "len";;
  ret IDN2_OK).

(** The functions these call; a cast of s to uint8_t * leaves its bytes as they are. *)
Definition as_u8 (s : list Z) : list Z := map (conv U8) s.
Fixpoint u32_strlen (l : list (option Z)) : res Z :=
  match l with Some c :: r => if c =? 0 then Val 0 else rbind (u32_strlen r) (fun n => Val (1 + n)%Z) | _ => UB end.
Definition udec (max : Z) (o : list (option Z)) (s : list Z) : out (list Z) := dec_call max o (as_u8 s).
Definition unicode_calls : list (string * (cty * (list (cty * Z) -> list carr -> res Z))) :=
  [("punycode_decode", (I32, fun args m => match args, m with [(_, p); (_, n); (_, max)], [(_, l); (_, o)] => rc_of (udec max o) p n l | _, _ => UB end));
   ("punycode_decode *output_length", (U64, fun args m => match args, m with [(_, p); (_, n); (_, max)], [(_, l); (_, o)] => len_of (udec max o) p n l | _, _ => UB end));
   ("punycode_decode output", (U32, fun args m => match args, m with [(_, p); (_, n); (_, max); (_, k)], [(_, l); (_, o)] => elt_of (udec max o) p n k l | _, _ => UB end));
   ("u8_to_u32", (I64, fun args m => match args, m with [(_, p); (_, n)], [(_, l)] => on_part (fun s => Val (match u8_to_u32 (as_u8 s) with Some a => zlen a | None => -1 end)) p n l | _, _ => UB end));
   ("u8_to_u32 result", (U32, fun args m => match args, m with [(_, p); (_, n); (_, k)], [(_, l)] => on_part (fun s => match u8_to_u32 (as_u8 s) with Some a => cell (map Some a) k | None => UB end) p n l | _, _ => UB end));
   ("u32_strlen", (U64, fun args m => match args, m with [], [(_, l)] => u32_strlen l | _, _ => UB end))].
Definition unicode_program : prog := mkprog (fun f => assoc f unicode_calls) [].
Lemma unicode_sequenced : forallb (fun f => all_sequenced (f_body f)) [c_to_unicode; c_44i_copy] = true.
Proof. reflexivity. Qed.
