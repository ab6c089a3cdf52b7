(** The text of lib/register.c in the language of CLang.v, with the conventions of
    CLookup.v.  *insertname is an array to which strdup copies. *)
From Coq Require Import String.
From Verif Require Import Base Uenv Utf8 Puny Idna Lookup CLang CLabel CLookup.
Local Open Scope string_scope.
Local Open Scope list_scope.
Local Open Scope Z_scope.
Local Open Scope c_scope.

Local Notation ret z := (SReturn (int z)).
(** *insertname = strdup (a). *)
Definition strdup (a : string) : stmt := fill "insertname" 0 (ECall "strlen" [a] [] + 1) (a @ "k").

(** register.c:138-207: idn2_register_u8 with ulabel only; "has_insertname" is
    insertname != NULL, "u32" the array that _idn2_u8_to_u32_nfc allocates. *)
Definition c_register_u : cfun := mkfun I32 ["ulabel"; "u32"; "tmp"; "insertname"] [("flags", I32); ("has_insertname", I32)]
 [("ulabellen", U64); ("u32len", U64); ("tmpl", U64); ("rc", I32); ("k", U64)]
 ("ulabellen" <- ECall "strlen" ["ulabel"] [];;
  when (ECall "_idn2_ascii_p" ["ulabel"] [EVar "ulabellen"])
    (when ("ulabellen" > 63)
       ret IDN2_TOO_BIG_LABEL;;
     when ("has_insertname")
       strdup "ulabel";;
     ret IDN2_OK);;
  "rc" <- ECall "_idn2_u8_to_u32_nfc" ["ulabel"] [EVar "ulabellen"; "flags" & IDN2_NFC_INPUT];;
  when ("rc" != IDN2_OK)
    SReturn "rc";;
  fill "u32" 0 (ECall "_idn2_u8_to_u32_nfc *outlen" ["ulabel"] [EVar "ulabellen"; "flags" & IDN2_NFC_INPUT]) (ECall "_idn2_u8_to_u32_nfc *out" ["ulabel"] [EVar "ulabellen"; "flags" & IDN2_NFC_INPUT; EVar "k"]);;
  "u32len" <- ECall "_idn2_u8_to_u32_nfc *outlen" ["ulabel"] [EVar "ulabellen"; "flags" & IDN2_NFC_INPUT];;
  "rc" <- ECall "_idn2_label_test" ["u32"] [int TEST_NFC .| TEST_DISALLOWED .| TEST_UNASSIGNED .| TEST_2HYPHEN .| TEST_HYPHEN_STARTEND .| TEST_LEADING_COMBINING .| TEST_CONTEXTJ_RULE .|
      TEST_CONTEXTO_RULE .| TEST_BIDI; int 0; EVar "u32len"];;
  when ("rc" != IDN2_OK)
    SReturn "rc";;
  SStore "tmp" 0 120;;
  SStore "tmp" 1 110;;
  SStore "tmp" 2 45;;
  SStore "tmp" 3 45;;
  "tmpl" <- int 63 - 4;;
  "rc" <- ECall "punycode_encode" ["u32"; "tmp"] [EVar "u32len"; EVar "tmpl"; int 4];;
  when ("rc" != IDN2_OK)
    SReturn "rc";;
  fill "tmp" 4 (ECall "punycode_encode *output_length" ["u32"; "tmp"] [EVar "u32len"; EVar "tmpl"; int 4]) (ECall "punycode_encode output" ["u32"; "tmp"] [EVar "u32len"; EVar "tmpl"; int 4; EVar "k"]);;
  "tmpl" <- ECall "punycode_encode *output_length" ["u32"; "tmp"] [EVar "u32len"; EVar "tmpl"; int 4];;
  SStore "tmp" (4 + "tmpl") 0;;
  when ("has_insertname")
    strdup "tmp";;
  ret IDN2_OK).

(** register.c:86-136, 207: idn2_register_u8 with alabel; "has_ulabel" is ulabel != NULL.
    u32_to_u8 writes to u8 if there is room.  The inner idn2_register_u8 (u8, NULL, &tmp, 0)
    is a call; "tmp" is the array it allocates. *)
Definition c_register_a : cfun := mkfun I32 ["ulabel"; "alabel"; "u32"; "u8"; "tmp"; "insertname"] [("has_ulabel", I32); ("has_insertname", I32)]
 [("alabellen", U64); ("u32len", U64); ("u8len", U64); ("rc", I32); ("k", U64)]
 ("alabellen" <- ECall "strlen" ["alabel"] [];;
  "u32len" <- int 63 * 4;;
  when ("alabellen" > 63)
    ret IDN2_TOO_BIG_LABEL;;
  when ("alabellen" <= 4)
    ret IDN2_INVALID_ALABEL;;
  when ("alabel" @ 0 != 120 OR "alabel" @ 1 != 110 OR "alabel" @ 2 != 45 OR "alabel" @ 3 != 45)
    ret IDN2_INVALID_ALABEL;;
  when (! (ECall "_idn2_ascii_p" ["alabel"] [EVar "alabellen"]))
    ret IDN2_INVALID_ALABEL;;
  "rc" <- ECall "punycode_decode" ["alabel"; "u32"] [int 4; "alabellen" - 4; EVar "u32len"];;
  when ("rc" != IDN2_OK)
    SReturn "rc";;
  fill "u32" 0 (ECall "punycode_decode *output_length" ["alabel"; "u32"] [int 4; "alabellen" - 4; EVar "u32len"])
    (ECall "punycode_decode output" ["alabel"; "u32"] [int 4; "alabellen" - 4; EVar "u32len"; EVar "k"]);;
  "u32len" <- ECall "punycode_decode *output_length" ["alabel"; "u32"] [int 4; "alabellen" - 4; EVar "u32len"];;
  "u8len" <- int 256;;
  when (ECall "u32_to_u8" ["u32"] [int 0; EVar "u32len"] == int 0 - int 1)
    ret IDN2_ENCODING_ERROR;;
  when (ECast U64 (ECall "u32_to_u8" ["u32"] [int 0; EVar "u32len"]) <= "u8len")
    fill "u8" 0 (ECast U64 (ECall "u32_to_u8" ["u32"] [int 0; EVar "u32len"])) (ECall "u32_to_u8 result" ["u32"] [int 0; EVar "u32len"; EVar "k"]);;
  "u8len" <- ECall "u32_to_u8" ["u32"] [int 0; EVar "u32len"];;
  SStore "u8" "u8len" 0;;
  when ("has_ulabel")
    when (ECall "strcmp" ["ulabel"; "u8"] [] != 0)
      ret IDN2_UALABEL_MISMATCH;;
  "rc" <- ECall "idn2_register_u8" ["u8"] [];;
  when ("rc" != IDN2_OK)
    SReturn "rc";;
  fill "tmp" 0 (ECall "idn2_register_u8 tmp size" ["u8"] []) (ECall "idn2_register_u8 tmp" ["u8"] [EVar "k"]);;
  "rc" <- ECall "strcmp" ["alabel"; "tmp"] [];;
  when ("rc" != 0)
    ret IDN2_UALABEL_MISMATCH;;
  when ("has_insertname")
    strdup "alabel";;
  ret IDN2_OK).

(** The string in an array. *)
Fixpoint cstr (l : list (option Z)) : res (list Z) :=
  match l with Some c :: r => if c =? 0 then Val [] else rbind (cstr r) (fun s => Val (c :: s)) | _ => UB end.
(** The functions these call; [reg] is what idn2_register_u8 does with a U-label and no flags. *)
Section Program.
  Variable U : uenv.
  Variable reg : list Z -> Z + list Z.
  Definition register_calls : list (string * (cty * (list (cty * Z) -> list carr -> res Z))) :=
    [("strlen", (U64, fun args m => match args, m with [], [(_, l)] => rbind (cstr l) (fun s => Val (zlen s)) | _, _ => UB end));
     ("strcmp", (I32, fun args m => match args, m with [], [(_, l); (_, o)] => rbind (cstr l) (fun s => rbind (cstr o) (fun t => Val (if list_eqb s t then 0 else 1))) | _, _ => UB end));
     ("idn2_register_u8", (I32, fun args m => match args, m with [], [(_, l)] => rbind (cstr l) (fun s => Val (match reg s with inl rc => rc | inr _ => 0 end)) | _, _ => UB end));
     ("idn2_register_u8 tmp size", (U64, fun args m => match args, m with [], [(_, l)] => rbind (cstr l) (fun s => match reg s with inr t => Val (zlen (t ++ [0])) | inl _ => UB end) | _, _ => UB end));
     ("idn2_register_u8 tmp", (U8, fun args m => match args, m with [(_, k)], [(_, l)] => rbind (cstr l) (fun s => match reg s with inr t => cell (map Some (t ++ [0])) k | inl _ => UB end) | _, _ => UB end));
     ("u32_to_u8", (I64, fun args m => match args, m with [(_, p); (_, n)], [(_, l)] => on_part (fun s => Val (match u32_to_u8 s with Some a => zlen a | None => -1 end)) p n l | _, _ => UB end));
     ("_idn2_label_test", (I32, fun args m => match args, m with [(_, w); (_, p); (_, n)], [(_, l)] => on_part (fun s => code (label_test U w s)) p n l | _, _ => UB end))] ++ label_calls U.
  Definition register_program : prog := mkprog (fun f => assoc f register_calls) [].
End Program.
Lemma register_sequenced : forallb (fun f => all_sequenced (f_body f)) [c_register_u; c_register_a] = true.
Proof. reflexivity. Qed.
