(** The text of lib/lookup.c in the language of CLang.v.

    A call that fills an array is a loop that stores what the function writes, each element
    by a call of its own; so is memcpy.  An object reached through a pointer is an array of
    one element.  What a function does before and after a malloc are two functions here:
    the first ends with the size that is asked for, the second is given an array of that
    size.  free is left out (C46 has it). *)
From Coq Require Import String.
From Verif Require Import Base Uenv DataTypes Tables Gentr46 Tr46Map Utf8 Idna Puny Lookup CLang CLabel.
Local Open Scope string_scope.
Local Open Scope list_scope.
Local Open Scope Z_scope.
Local Open Scope c_scope.

Local Notation ret z := (SReturn (int z)).

(** lookup.c:59-69; the case labels of the switch. *)
Definition c_c_tolower : cfun := mkfun I32 [] [("c", I32)] []
 (test ("c" == 65 OR "c" == 66 OR "c" == 67 OR "c" == 68 OR "c" == 69 OR "c" == 70 OR "c" == 71 OR "c" == 72 OR "c" == 73 OR "c" == 74 OR "c" == 75 OR "c" == 76 OR "c" == 77 OR
        "c" == 78 OR "c" == 79 OR "c" == 80 OR "c" == 81 OR "c" == 82 OR "c" == 83 OR "c" == 84 OR "c" == 85 OR "c" == 86 OR "c" == 87 OR "c" == 88 OR "c" == 89 OR "c" == 90)
    SReturn ("c" - 65 + 97)
  else
    SReturn "c").
(** lookup.c:71-101; the two arrays are not the same, so p1 == p2 is 0. *)
Definition c_c_strncasecmp : cfun := mkfun I32 ["s1"; "s2"] [("n", U64)] [("p1", U64); ("p2", U64); ("c1", U8); ("c2", U8)]
 ("p1" <- 0;;
  "p2" <- 0;;
  when (0 OR "n" == 0)
    ret 0;;
  SLoop 1 SSkip
    ("c1" <- ECall "c_tolower" [] ["s1" @ "p1"];;
     "c2" <- ECall "c_tolower" [] ["s2" @ "p2"];;
     when (EOp Sub "n" 1 == 0 OR "c1" == 0)
       SBreak;;
     SExp (EPre "p1");;
     SExp (EPre "p2");;
     when (! ("c1" == "c2"))
       SBreak);;
  SReturn ("c1" - "c2")).

(** lookup.c:106-124 *)
Definition c_set_default_flags : cfun := mkfun I32 ["flags"] [] []
 (when (("flags" @ 0 & IDN2_TRANSITIONAL) AND ("flags" @ 0 & IDN2_NONTRANSITIONAL))
    ret IDN2_INVALID_FLAGS;;
  when (("flags" @ 0 & (IDN2_TRANSITIONAL .| IDN2_NONTRANSITIONAL)) AND ("flags" @ 0 & IDN2_NO_TR46))
    ret IDN2_INVALID_FLAGS;;
  when (("flags" @ 0 & IDN2_ALABEL_ROUNDTRIP) AND ("flags" @ 0 & IDN2_NO_ALABEL_ROUNDTRIP))
    ret IDN2_INVALID_FLAGS;;
  when (! ("flags" @ 0 & (IDN2_NO_TR46 .| IDN2_TRANSITIONAL)))
    SStore "flags" 0 ("flags" @ 0 .| IDN2_NONTRANSITIONAL);;
  ret IDN2_OK).

(** lookup.c:266-345: _tr46 after the conversion to UTF-32, which gives domain_u32 and len,
    up to the call of malloc. *)
Definition c_tr46_count : cfun := mkfun I32 ["domain_u32"; "malloc"] [("len", U64); ("flags", I32)] [("transitional", I32); ("len2", U64); ("it", U64); ("map", U32); ("map.nmappings", I32)]
 ("len2" <- 0;;
  "transitional" <- 0;;
  when ("flags" & IDN2_TRANSITIONAL)
    "transitional" <- 1;;
  for_ ("it" <- 0; "it" < "len" - 1; SExp (EPost "it"))
    ("map" <- ECall "get_idna_map" [] ["domain_u32" @ "it"];;
     "map.nmappings" <- ECall "get_idna_map nmappings" [] ["domain_u32" @ "it"];;
     test (CLabel.map_is FLG_DISALLOWED)
       (when ("domain_u32" @ "it")
          ret IDN2_DISALLOWED;;
        SExp (EPost "len2"))
     else test (CLabel.map_is FLG_MAPPED)
       "len2" += "map.nmappings"
     else test (CLabel.map_is FLG_VALID)
       SExp (EPost "len2")
     else test (CLabel.map_is FLG_IGNORED)
       SContinue
     else test (CLabel.map_is FLG_DEVIATION)
       (test ("transitional")
          "len2" += "map.nmappings"
        else
          SExp (EPost "len2"))
     else when (! ("flags" & IDN2_USE_STD3_ASCII_RULES))
       (test (CLabel.map_is FLG_DISALLOWED_STD3_VALID)
          SExp (EPost "len2")
        else when (CLabel.map_is FLG_DISALLOWED_STD3_MAPPED)
          "len2" += "map.nmappings"));;
  when ("len2" >= 255)
    ret IDN2_TOO_BIG_DOMAIN;;
  SStore "malloc" 0 (("len2" + 1) * EInt U64 4);;
  ret 0).
(** lookup.c:346-398, up to the call of u32_normalize with tmp and len2 + 1. *)
Definition c_map_data : stmt :=
 (for_ ("k" <- 0; "k" < ECall "get_map_data" [] [EVar "c"]; SExp (EPost "k"))
    (SStore "tmp" ("len2" + "k") (ECall "get_map_data dst" [] [EVar "c"; EVar "k"]));;
  "len2" += ECall "get_map_data" [] [EVar "c"]).
Definition c_tr46_write : cfun := mkfun I32 ["domain_u32"; "tmp"; "u32_normalize"] [("len", U64); ("flags", I32); ("transitional", I32)] [("len2", U64); ("it", U64); ("c", U32); ("map", U32); ("k", I32)]
 ("len2" <- 0;;
  for_ ("it" <- 0; "it" < "len" - 1; SExp (EPost "it"))
    ("c" <- "domain_u32" @ "it";;
     "map" <- ECall "get_idna_map" [] [EVar "c"];;
     test (CLabel.map_is FLG_DISALLOWED)
       SStore "tmp" (EPost "len2") "c"
     else test (CLabel.map_is FLG_MAPPED)
       c_map_data
     else test (CLabel.map_is FLG_VALID)
       SStore "tmp" (EPost "len2") "c"
     else test (CLabel.map_is FLG_IGNORED)
       SContinue
     else test (CLabel.map_is FLG_DEVIATION)
       (test ("transitional")
          c_map_data
        else
          SStore "tmp" (EPost "len2") "c")
     else when (! ("flags" & IDN2_USE_STD3_ASCII_RULES))
       (test (CLabel.map_is FLG_DISALLOWED_STD3_VALID)
          SStore "tmp" (EPost "len2") "c"
        else when (CLabel.map_is FLG_DISALLOWED_STD3_MAPPED)
          c_map_data));;
  SStore "tmp" "len2" 0;;
  SStore "u32_normalize" 0 ("len2" + 1);;
  ret 0).

(** Subtracting pointers gives a ptrdiff_t, 6.5.6/9. *)
Definition diff (a b : expr) : expr := ECast I64 (EBin Sub a b).
(** lookup.c:409-474: the loop over the labels; domain_u32 is what u32_normalize returned,
    the value is err or what is returned inside the loop.  The arrays ace and name_u32 are
    those of the calls: "_idn2_label_test name_u32" is given the digits. *)
Definition c_tr46_labels : cfun := mkfun I32 ["domain_u32"] [("flags", I32); ("transitional", I32)] [("err", I32); ("rc", I32); ("e", U64); ("s", U64); ("test_flags", I32)]
 ("err" <- IDN2_OK;;
  for_ ("e" <- EAsg "s" 0; "domain_u32" @ "e"; "s" <- "e")
    (SLoop ("domain_u32" @ "e" AND "domain_u32" @ "e" != 46) SSkip
       (SExp (EPost "e"));;
     test (diff "e" "s" >= 4 AND "domain_u32" @ ("s" + 0) == 120 AND "domain_u32" @ ("s" + 1) == 110 AND "domain_u32" @ ("s" + 2) == 45 AND "domain_u32" @ ("s" + 3) == 45)
       (when (ECall "u32_to_u8" ["domain_u32"] ["s" + 4; diff "e" "s" - 4] == int 0 - int 1)
          ret IDN2_ENCODING_ERROR;;
        "rc" <- ECall "_idn2_punycode_decode_internal" ["domain_u32"] ["s" + 4; diff "e" "s" - 4];;
        when ("rc")
          SReturn "rc";;
        "test_flags" <- TR46_NONTRANSITIONAL_CHECK;;
        when (! ("flags" & IDN2_USE_STD3_ASCII_RULES))
          SExp (EOp BOr "test_flags" TEST_ALLOW_STD3_DISALLOWED);;
        when (EAsg "rc" (ECall "_idn2_label_test name_u32" ["domain_u32"] [EVar "test_flags"; "s" + 4; diff "e" "s" - 4]))
          "err" <- "rc")
     else
       ("test_flags" <- ("transitional" ? int TR46_TRANSITIONAL_CHECK : int TR46_NONTRANSITIONAL_CHECK);;
        when (! ("flags" & IDN2_USE_STD3_ASCII_RULES))
          SExp (EOp BOr "test_flags" TEST_ALLOW_STD3_DISALLOWED);;
        when (EAsg "rc" (ECall "_idn2_label_test" ["domain_u32"] [EVar "test_flags"; EVar "s"; diff "e" "s"]))
          "err" <- "rc");;
     when ("domain_u32" @ "e")
       SExp (EPost "e"));;
  SReturn "err").

(** lookup.c:563-606: idn2_lookup_u8 from the loop over the labels to the malloc; "src" is
    the string, "p" the pointer src.  label() is called once; it returns the code, leaves
    tmplen, and fills tmp. *)
Definition c_lookup_u8 : cfun := mkfun I32 ["src"; "_lookupname"; "malloc"] [("flags", I32)] [("lookupnamelen", U64); ("p", U64); ("end", U64); ("labellen", U64); ("tmplen", U64); ("rc", I32); ("k", U64)]
 ("lookupnamelen" <- 0;;
  "p" <- 0;;
  SLoop 1 SSkip
    ("end" <- ECall "strchrnul '.'" ["src"] [EVar "p"];;
     "labellen" <- diff "end" "p";;
     "rc" <- ECall "label" ["src"] [EVar "p"; EVar "labellen"; EVar "flags"];;
     when ("rc" != IDN2_OK)
       SReturn "rc";;
     "tmplen" <- ECall "label tmplen" ["src"] [EVar "p"; EVar "labellen"; EVar "flags"];;
     when ("lookupnamelen" + "tmplen" > 255 - ("tmplen" == 0 AND "src" @ "end" == 0 ? int 1 : int 2))
       ret IDN2_TOO_BIG_DOMAIN;;
     for_ ("k" <- 0; "k" < "tmplen"; SExp (EPost "k"))
       (SStore "_lookupname" ("lookupnamelen" + "k") (ECall "label tmp" ["src"] [EVar "p"; EVar "labellen"; EVar "flags"; EVar "k"]));;
     "lookupnamelen" += "tmplen";;
     when ("src" @ "end" == 46)
       (when ("lookupnamelen" + 1 > 255)
          ret IDN2_TOO_BIG_DOMAIN;;
        SStore "_lookupname" "lookupnamelen" 46;;
        SExp (EPost "lookupnamelen"));;
     SStore "_lookupname" "lookupnamelen" 0;;
     "p" <- "end";;
     when (! ("src" @ (EPost "p")))
       SBreak);;
  SStore "malloc" 0 ("lookupnamelen" + 1);;
  ret IDN2_OK).

(** An array that a callee fills: the [n] elements from [a + i] on become the values of [e]. *)
Definition fill (a : string) (i n e : expr) : stmt := for_ ("k" <- 0; "k" < n; SExp (EPost "k")) (SStore a (i + "k") e).
(** lookup.c:126-255: label().  "src_allocated" and "p" are the arrays that u32_to_u8 and
    _idn2_u8_to_u32_nfc allocate; "allocated" says that the pointer src is src_allocated.
    "out:" only frees them. *)
Definition on_src (f : string) (args : list expr) : expr := "allocated" ? ECall f ["src_allocated"] args : ECall f ["src"] args.
Definition c_label : cfun := mkfun I32 ["src"; "dst"; "dstlen"; "label_u32"; "src_allocated"; "p"] [("srclen", U64); ("flags", I32)]
 [("plen", U64); ("allocated", I32); ("rc", I32); ("check_roundtrip", I32); ("tmpl", U64); ("srclen_org", U64); ("label32_len", U64); ("k", U64)]
 ("allocated" <- 0;;
  "check_roundtrip" <- 0;;
  "srclen_org" <- 0;;
  "label32_len" <- 63;;
  when (ECall "_idn2_ascii_p" ["src"] [EVar "srclen"])
    (test (! ("flags" & IDN2_NO_ALABEL_ROUNDTRIP) AND "srclen" >= 4 AND ECall "memcmp xn--" ["src"] [int 4] == 0)
       ("rc" <- ECall "punycode_decode" ["src"; "label_u32"] [int 4; "srclen" - 4; EVar "label32_len"];;
        when ("rc")
          SReturn "rc";;
        fill "label_u32" 0 (ECall "punycode_decode *output_length" ["src"; "label_u32"] [int 4; "srclen" - 4; EVar "label32_len"])
          (ECall "punycode_decode output" ["src"; "label_u32"] [int 4; "srclen" - 4; EVar "label32_len"; EVar "k"]);;
        "label32_len" <- ECall "punycode_decode *output_length" ["src"; "label_u32"] [int 4; "srclen" - 4; EVar "label32_len"];;
        "check_roundtrip" <- 1;;
        "srclen_org" <- "srclen";;
        "srclen" <- 63;;
        when (ECall "u32_to_u8" ["label_u32"] [int 0; EVar "label32_len"] == int 0 - int 1)
          ret IDN2_ENCODING_ERROR;;
        fill "src_allocated" 0 (ECast U64 (ECall "u32_to_u8" ["label_u32"] [int 0; EVar "label32_len"])) (ECall "u32_to_u8 result" ["label_u32"] [int 0; EVar "label32_len"; EVar "k"]);;
        "srclen" <- ECall "u32_to_u8" ["label_u32"] [int 0; EVar "label32_len"];;
        "allocated" <- 1)
     else
       (when ("srclen" > 63)
          ret IDN2_TOO_BIG_LABEL;;
        when ("srclen" > "dstlen" @ 0)
          ret IDN2_TOO_BIG_DOMAIN;;
        fill "dst" 0 "srclen" ("src" @ "k");;
        SStore "dstlen" 0 "srclen";;
        ret IDN2_OK));;
  "rc" <- on_src "_idn2_u8_to_u32_nfc" [EVar "srclen"; "flags" & IDN2_NFC_INPUT];;
  when ("rc" != IDN2_OK)
    SReturn "rc";;
  fill "p" 0 (on_src "_idn2_u8_to_u32_nfc *outlen" [EVar "srclen"; "flags" & IDN2_NFC_INPUT]) (on_src "_idn2_u8_to_u32_nfc *out" [EVar "srclen"; "flags" & IDN2_NFC_INPUT; EVar "k"]);;
  "plen" <- on_src "_idn2_u8_to_u32_nfc *outlen" [EVar "srclen"; "flags" & IDN2_NFC_INPUT];;
  when (! ("flags" & IDN2_TRANSITIONAL))
    ("rc" <- ECall "_idn2_label_test" ["p"] [int TEST_NFC .| TEST_2HYPHEN .| TEST_LEADING_COMBINING .| TEST_DISALLOWED .| TEST_CONTEXTJ_RULE .| TEST_CONTEXTO_WITH_RULE .| TEST_UNASSIGNED .| TEST_BIDI .|
         ("flags" & IDN2_NONTRANSITIONAL ? int TEST_NONTRANSITIONAL : int 0) .| ("flags" & IDN2_USE_STD3_ASCII_RULES ? int 0 : int TEST_ALLOW_STD3_DISALLOWED); int 0; EVar "plen"];;
     when ("rc" != IDN2_OK)
       SReturn "rc");;
  SStore "dst" 0 120;;
  SStore "dst" 1 110;;
  SStore "dst" 2 45;;
  SStore "dst" 3 45;;
  "tmpl" <- "dstlen" @ 0 - 4;;
  "rc" <- ECall "punycode_encode" ["p"; "dst"] [EVar "plen"; EVar "tmpl"; int 4];;
  when ("rc" != IDN2_OK)
    SReturn "rc";;
  fill "dst" 4 (ECall "punycode_encode *output_length" ["p"; "dst"] [EVar "plen"; EVar "tmpl"; int 4]) (ECall "punycode_encode output" ["p"; "dst"] [EVar "plen"; EVar "tmpl"; int 4; EVar "k"]);;
  "tmpl" <- ECall "punycode_encode *output_length" ["p"; "dst"] [EVar "plen"; EVar "tmpl"; int 4];;
  SStore "dstlen" 0 (4 + "tmpl");;
  test ("check_roundtrip")
    when ("srclen_org" != "dstlen" @ 0 OR ECall "c_strncasecmp" ["src"; "dst"] [EVar "srclen_org"])
      ret IDN2_ALABEL_ROUNDTRIP_FAILED
  else when (! ("flags" & IDN2_NO_ALABEL_ROUNDTRIP))
    ("rc" <- ECall "punycode_decode" ["dst"; "label_u32"] [int 4; "dstlen" @ 0 - 4; EVar "label32_len"];;
     when ("rc")
       ret IDN2_ALABEL_ROUNDTRIP_FAILED;;
     fill "label_u32" 0 (ECall "punycode_decode *output_length" ["dst"; "label_u32"] [int 4; "dstlen" @ 0 - 4; EVar "label32_len"])
       (ECall "punycode_decode output" ["dst"; "label_u32"] [int 4; "dstlen" @ 0 - 4; EVar "label32_len"; EVar "k"]);;
     "label32_len" <- ECall "punycode_decode *output_length" ["dst"; "label_u32"] [int 4; "dstlen" @ 0 - 4; EVar "label32_len"];;
     when ("plen" != "label32_len" OR ECall "u32_cmp" ["p"; "label_u32"] [EVar "label32_len"])
       ret IDN2_ALABEL_ROUNDTRIP_FAILED);;
  ret IDN2_OK).

(** The functions these call. *)
Section Program.
  Variable U : uenv.
  (** label() as the lookup calls it: any function from a label and the flags to an error
      code or to what it leaves in tmp. *)
  Variable lab : list Z -> Z -> Z + list Z.
  (** The [n] elements from [p] on. *)
  Definition part (l : list (option Z)) (p n : Z) : res (list Z) := if (0 <=? p) && (p <=? zlen l) then prefix (skipn (Z.to_nat p) l) n else UB.
  Definition on_part {A} (f : list Z -> res A) (p n : Z) (l : list (option Z)) : res A := rbind (part l p n) f.
  Fixpoint find_end (l : list (option Z)) (p : Z) : res Z :=
    match l with Some c :: r => if (c =? 46) || (c =? 0) then Val p else find_end r (p + 1)%Z | _ => UB end.
  Definition map_of (c : Z) (f : idnamap -> res Z) : res Z := match get_idna_map c with Ok (m, _) => f m | _ => UB end.
  Definition data_of (c : Z) (f : list Z -> res Z) : res Z := map_of c (fun m => match get_map_data m with Ok l => f l | _ => UB end).
  Definition ace_of (s : list Z) : res (list Z) := match u32_to_u8 s with Some a => Val a | None => UB end.
  Definition code {A} (o : out A) : res Z := match o with Ok _ => Val 0 | Fail rc => Val rc | _ => UB end.
  (** The values of a call on the [n] elements from [p] on: its code, how much it writes, and
      what. *)
  Definition rc_of (f : list Z -> out (list Z)) (p n : Z) (l : list (option Z)) : res Z := on_part (fun s => code (f s)) p n l.
  Definition len_of (f : list Z -> out (list Z)) (p n : Z) (l : list (option Z)) : res Z := on_part (fun s => match f s with Ok d => Val (zlen d) | _ => UB end) p n l.
  Definition elt_of (f : list Z -> out (list Z)) (p n k : Z) (l : list (option Z)) : res Z := on_part (fun s => match f s with Ok d => cell (map Some d) k | _ => UB end) p n l.
  Definition nfc_call (q : Z) (s : list Z) : out (list Z) := u8_to_u32_nfc U s (negb (q =? 0)).
  Definition enc_call (max i : Z) (dst : list (option Z)) (s : list Z) : out (list Z) := puny_encode s max (zlen dst - i).
  Definition dec_call (max : Z) (out : list (option Z)) (s : list Z) : Base.out (list Z) := puny_decode s max (zlen out).
  Definition label_calls : list (string * (cty * (list (cty * Z) -> list carr -> res Z))) :=
    [("_idn2_ascii_p", (U8, fun args m => match args, m with [(_, n)], [(_, l)] => on_part (fun s => Val (if ascii_p s then 1 else 0)) 0 n l | _, _ => UB end));
     ("memcmp xn--", (I32, fun args m => match args, m with [(_, n)], [(_, l)] => on_part (fun s => Val (if list_eqb s ace_prefix then 0 else 1)) 0 n l | _, _ => UB end));
     ("punycode_decode", (I32, fun args m => match args, m with [(_, p); (_, n); (_, max)], [(_, l); (_, o)] => rc_of (dec_call max o) p n l | _, _ => UB end));
     ("punycode_decode *output_length", (U64, fun args m => match args, m with [(_, p); (_, n); (_, max)], [(_, l); (_, o)] => len_of (dec_call max o) p n l | _, _ => UB end));
     ("punycode_decode output", (U32, fun args m => match args, m with [(_, p); (_, n); (_, max); (_, k)], [(_, l); (_, o)] => elt_of (dec_call max o) p n k l | _, _ => UB end));
     ("u32_to_u8 result", (U8, fun args m => match args, m with [(_, p); (_, n); (_, k)], [(_, l)] => on_part (fun s => rbind (ace_of s) (fun a => cell (map Some a) k)) p n l | _, _ => UB end));
     ("_idn2_u8_to_u32_nfc", (I32, fun args m => match args, m with [(_, n); (_, q)], [(_, l)] => rc_of (nfc_call q) 0 n l | _, _ => UB end));
     ("_idn2_u8_to_u32_nfc *outlen", (U64, fun args m => match args, m with [(_, n); (_, q)], [(_, l)] => len_of (nfc_call q) 0 n l | _, _ => UB end));
     ("_idn2_u8_to_u32_nfc *out", (U32, fun args m => match args, m with [(_, n); (_, q); (_, k)], [(_, l)] => elt_of (nfc_call q) 0 n k l | _, _ => UB end));
     ("punycode_encode", (I32, fun args m => match args, m with [(_, n); (_, max); (_, i)], [(_, l); (_, o)] => rc_of (enc_call max i o) 0 n l | _, _ => UB end));
     ("punycode_encode *output_length", (U64, fun args m => match args, m with [(_, n); (_, max); (_, i)], [(_, l); (_, o)] => len_of (enc_call max i o) 0 n l | _, _ => UB end));
     ("punycode_encode output", (U8, fun args m => match args, m with [(_, n); (_, max); (_, i); (_, k)], [(_, l); (_, o)] => elt_of (enc_call max i o) 0 n k l | _, _ => UB end));
     ("u32_cmp", (I32, fun args m => match args, m with [(_, n)], [(_, l); (_, o)] => on_part (fun s => on_part (fun t => Val (if list_eqb s t then 0 else 1)) 0 n o) 0 n l | _, _ => UB end))].
  Definition lookup_calls : list (string * (cty * (list (cty * Z) -> list carr -> res Z))) :=
    [("get_idna_map nmappings", (I32, one (fun c => map_of c (fun m => Val (m_n m)))));
     ("get_map_data", (I32, one (fun c => data_of c (fun l => Val (zlen l)))));
     ("get_map_data dst", (U32, fun args m => match args, m with [(_, c); (_, k)], [] => data_of c (fun l => cell (map Some l) k) | _, _ => UB end));
     ("u32_to_u8", (I64, fun args m => match args, m with [(_, p); (_, n)], [(_, l)] =>
        on_part (fun s => Val (match u32_to_u8 s with Some a => zlen a | None => -1 end)) p n l | _, _ => UB end));
     ("_idn2_punycode_decode_internal", (I32, fun args m => match args, m with [(_, p); (_, n)], [(_, l)] =>
        on_part (fun s => rbind (ace_of s) (fun a => code (puny_decode a LABEL_MAX LABEL_MAX))) p n l | _, _ => UB end));
     ("_idn2_label_test name_u32", (I32, fun args m => match args, m with [(_, w); (_, p); (_, n)], [(_, l)] =>
        on_part (fun s => rbind (ace_of s) (fun a => match puny_decode a LABEL_MAX LABEL_MAX with Ok d => code (label_test U w d) | _ => UB end)) p n l | _, _ => UB end));
     ("_idn2_label_test", (I32, fun args m => match args, m with [(_, w); (_, p); (_, n)], [(_, l)] => on_part (fun s => code (label_test U w s)) p n l | _, _ => UB end));
     ("strchrnul '.'", (U64, fun args m => match args, m with [(_, p)], [(_, l)] => if (0 <=? p) && (p <=? zlen l) then find_end (skipn (Z.to_nat p) l) p else UB | _, _ => UB end));
     ("label", (I32, fun args m => match args, m with [(_, p); (_, n); (_, f)], [(_, l)] => on_part (fun s => Val (match lab s f with inl rc => rc | inr _ => 0 end)) p n l | _, _ => UB end));
     ("label tmplen", (U64, fun args m => match args, m with [(_, p); (_, n); (_, f)], [(_, l)] => on_part (fun s => match lab s f with inr t => Val (zlen t) | inl _ => UB end) p n l | _, _ => UB end));
     ("label tmp", (U8, fun args m => match args, m with [(_, p); (_, n); (_, f); (_, k)], [(_, l)] =>
        on_part (fun s => match lab s f with inr t => cell (map Some t) k | inl _ => UB end) p n l | _, _ => UB end))].
  Definition lookup_lib : clib := fun f => assoc f (lookup_calls ++ tables ++ label_calls).
  Definition lookup_program : prog := mkprog lookup_lib [("c_tolower", c_c_tolower); ("c_strncasecmp", c_c_strncasecmp)].
End Program.
Lemma lookup_sequenced : forallb (fun f => all_sequenced (f_body f))
  [c_c_tolower; c_c_strncasecmp; c_set_default_flags; c_tr46_count; c_tr46_write; c_tr46_labels; c_lookup_u8; c_label] = true.
Proof. reflexivity. Qed.
