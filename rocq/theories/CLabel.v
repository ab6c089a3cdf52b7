(** The text of lib/bidi.c, lib/context.c and of the tests in lib/idna.c in the language
    of CLang.v.  A pointer that moves over an array is an index into it; a switch is a
    chain of comparisons, no case of these falls into the next one, and each ends with a
    return; a bool is a uint8_t, only 0 and 1 are stored in one; the variables of inner
    blocks are variables of the function. *)
From Coq Require Import String.
From Verif Require Import Base Uenv DataTypes Tables Gentr46 Tr46Map Context Idna CLang.
Local Open Scope string_scope.
Local Open Scope list_scope.
Local Open Scope Z_scope.
Local Open Scope c_scope.

Local Notation ret z := (SReturn (int z)).
(** The enumerators of <unictype.h>. *)
Definition bidi_num (b : bidi_class) : Z :=
  match b with
  | UC_BIDI_L => 0 | UC_BIDI_LRE => 1 | UC_BIDI_LRO => 2 | UC_BIDI_R => 3 | UC_BIDI_AL => 4 | UC_BIDI_RLE => 5 | UC_BIDI_RLO => 6
  | UC_BIDI_PDF => 7 | UC_BIDI_EN => 8 | UC_BIDI_ES => 9 | UC_BIDI_ET => 10 | UC_BIDI_AN => 11 | UC_BIDI_CS => 12 | UC_BIDI_NSM => 13
  | UC_BIDI_BN => 14 | UC_BIDI_B => 15 | UC_BIDI_S => 16 | UC_BIDI_WS => 17 | UC_BIDI_ON => 18
  | UC_BIDI_LRI => 19 | UC_BIDI_RLI => 20 | UC_BIDI_FSI => 21 | UC_BIDI_PDI => 22
  end.
Definition joining_num (j : joining) : Z :=
  match j with UC_JOINING_TYPE_U => 0 | UC_JOINING_TYPE_T => 1 | UC_JOINING_TYPE_C => 2 | UC_JOINING_TYPE_L => 3 | UC_JOINING_TYPE_R => 4 | UC_JOINING_TYPE_D => 5 end.
Local Notation BIDI_L := (int 0). Local Notation BIDI_R := (int 3). Local Notation BIDI_AL := (int 4). Local Notation BIDI_EN := (int 8).
Local Notation BIDI_ES := (int 9). Local Notation BIDI_ET := (int 10). Local Notation BIDI_AN := (int 11). Local Notation BIDI_CS := (int 12).
Local Notation BIDI_NSM := (int 13). Local Notation BIDI_BN := (int 14). Local Notation BIDI_ON := (int 18).
Local Notation JOINING_T := (int 1). Local Notation JOINING_L := (int 3). Local Notation JOINING_R := (int 4). Local Notation JOINING_D := (int 5).

(** bidi.c:40-52; "*label++" is label[p++]. *)
Definition c_isBidi : cfun := mkfun U8 ["label"] [("llen", U64)] [("p", U64); ("bc", I32)]
 ("p" <- 0;;
  SLoop (ECast I64 "llen" > 0) (SExp (EOp Sub "llen" 1))
    ("bc" <- ECall "uc_bidi_category" [] ["label" @ (EPost "p")];;
     when ("bc" == BIDI_R OR "bc" == BIDI_AL OR "bc" == BIDI_AN)
       ret 1);;
  ret 0).
(** bidi.c:54-123 *)
Definition c_bidi : cfun := mkfun I32 ["label"] [("llen", U64)] [("bc", I32); ("endok", I32); ("it", U64)]
 ("endok" <- 1;;
  when (! ECall "_isBidi" ["label"] [EVar "llen"])
    ret IDN2_OK;;
  "bc" <- ECall "uc_bidi_category" [] ["label" @ 0];;
  test ("bc" == BIDI_L)
    (for_ ("it" <- 1; "it" < "llen"; SExp (EPost "it"))
       ("bc" <- ECall "uc_bidi_category" [] ["label" @ "it"];;
        test ("bc" == BIDI_L OR "bc" == BIDI_EN OR "bc" == BIDI_NSM)
          "endok" <- 1
        else
          (when ("bc" != BIDI_ES AND "bc" != BIDI_CS AND "bc" != BIDI_ET AND "bc" != BIDI_ON AND "bc" != BIDI_BN)
             ret IDN2_BIDI;;
           "endok" <- 0));;
     SReturn ("endok" ? int IDN2_OK : int IDN2_BIDI))
  else test ("bc" == BIDI_R OR "bc" == BIDI_AL)
    (for_ ("it" <- 1; "it" < "llen"; SExp (EPost "it"))
       ("bc" <- ECall "uc_bidi_category" [] ["label" @ "it"];;
        test ("bc" == BIDI_R OR "bc" == BIDI_AL OR "bc" == BIDI_EN OR "bc" == BIDI_AN OR "bc" == BIDI_NSM)
          "endok" <- 1
        else
          (when ("bc" != BIDI_ES AND "bc" != BIDI_CS AND "bc" != BIDI_ET AND "bc" != BIDI_ON AND "bc" != BIDI_BN)
             ret IDN2_BIDI;;
           "endok" <- 0));;
     SReturn ("endok" ? int IDN2_OK : int IDN2_BIDI))
  else
    ret IDN2_BIDI).

(** context.c:35-113 *)
Definition c_contextj_rule : cfun := mkfun I32 ["label"] [("llen", U64); ("pos", U64)] [("cp", U32); ("before_cp", U32); ("cc", I32); ("jt", I32); ("tmp", U64)]
 (when ("llen" == 0)
    ret IDN2_OK;;
  "cp" <- "label" @ "pos";;
  when (! ECall "_idn2_contextj_p" [] [EVar "cp"])
    ret IDN2_OK;;
  test ("cp" == 8204)
    (when ("pos" > 0)
       ("before_cp" <- "label" @ ("pos" - 1);;
        "cc" <- ECall "uc_combining_class" [] [EVar "before_cp"];;
        when ("cc" == 9)
          ret IDN2_OK);;
     when ("pos" == 0 OR "pos" == "llen" - 1)
       ret IDN2_CONTEXTJ;;
     for_ ("tmp" <- "pos" - 1; 1; SExp (EOp Sub "tmp" 1))
       ("jt" <- ECall "uc_joining_type" [] ["label" @ "tmp"];;
        when ("jt" == JOINING_L OR "jt" == JOINING_D)
          SBreak;;
        when ("tmp" == 0)
          ret IDN2_CONTEXTJ;;
        when ("jt" == JOINING_T)
          SContinue;;
        ret IDN2_CONTEXTJ);;
     for_ ("tmp" <- "pos" + 1; "tmp" < "llen"; SExp (EPost "tmp"))
       ("jt" <- ECall "uc_joining_type" [] ["label" @ "tmp"];;
        when ("jt" == JOINING_R OR "jt" == JOINING_D)
          SBreak;;
        when ("tmp" == "llen" - 1)
          ret IDN2_CONTEXTJ;;
        when ("jt" == JOINING_T)
          SContinue;;
        ret IDN2_CONTEXTJ);;
     ret IDN2_OK)
  else test ("cp" == 8205)
    (when ("pos" > 0)
       ("before_cp" <- "label" @ ("pos" - 1);;
        "cc" <- ECall "uc_combining_class" [] [EVar "before_cp"];;
        when ("cc" == 9)
          ret IDN2_OK);;
     ret IDN2_CONTEXTJ)
  else
    ret IDN2_CONTEXTJ_NO_RULE).

(** strcmp (_uc_script_name (e), "...") of context.c:115-124 and its uses. *)
Definition script_cmp (name : string) (e : expr) : expr := ECall (String.append "strcmp script " name) [] [e].
(** A list of case labels in front of one block. *)
Definition cases (l : list Z) (x : string) : expr := fold_left (fun e c => EOr e (EBin Eq (EVar x) (int c))) (tl l) (EBin Eq (EVar x) (int (hd 0 l))).
Definition arabic_indic := [1632; 1633; 1634; 1635; 1636; 1637; 1638; 1639; 1640; 1641].
Definition ext_arabic_indic := [1776; 1777; 1778; 1779; 1780; 1781; 1782; 1783; 1784; 1785].
(** context.c:126-226 *)
Definition c_contexto_rule : cfun := mkfun I32 ["label"] [("llen", U64); ("pos", U64)] [("cp", U32); ("i", U64); ("script_ok", U8)]
 ("cp" <- "label" @ "pos";;
  when (! ECall "_idn2_contexto_p" [] [EVar "cp"])
    ret IDN2_OK;;
  test ("cp" == 183)
    (when ("llen" < 3)
       ret IDN2_CONTEXTO;;
     when ("pos" == 0 OR "pos" == "llen" - 1)
       ret IDN2_CONTEXTO;;
     when ("label" @ ("pos" - 1) == 108 AND "label" @ ("pos" + 1) == 108)
       ret IDN2_OK;;
     ret IDN2_CONTEXTO)
  else test ("cp" == 885)
    (when ("pos" == "llen" - 1)
       ret IDN2_CONTEXTO;;
     when (script_cmp "Greek" ("label" @ ("pos" + 1)) == 0)
       ret IDN2_OK;;
     ret IDN2_CONTEXTO)
  else test (cases [1523; 1524] "cp")
    (when ("pos" == 0)
       ret IDN2_CONTEXTO;;
     when (script_cmp "Hebrew" ("label" @ ("pos" - 1)) == 0)
       ret IDN2_OK;;
     ret IDN2_CONTEXTO)
  else test (cases arabic_indic "cp")
    (for_ ("i" <- 0; "i" < "llen"; SExp (EPost "i"))
       (when ("label" @ "i" >= 1776 AND "label" @ "i" <= 1785)
          ret IDN2_CONTEXTO);;
     ret IDN2_OK)
  else test (cases ext_arabic_indic "cp")
    (for_ ("i" <- 0; "i" < "llen"; SExp (EPost "i"))
       (when ("label" @ "i" >= 1632 AND "label" @ "i" <= 1641)
          ret IDN2_CONTEXTO);;
     ret IDN2_OK)
  else test ("cp" == 12539)
    ("script_ok" <- 0;;
     for_ ("i" <- 0; ! "script_ok" AND "i" < "llen"; SExp (EPost "i"))
       (when (script_cmp "Hiragana" ("label" @ "i") == 0 OR script_cmp "Katakana" ("label" @ "i") == 0 OR script_cmp "Han" ("label" @ "i") == 0)
          "script_ok" <- 1);;
     when ("script_ok")
       ret IDN2_OK;;
     ret IDN2_CONTEXTO)
  else
    ret IDN2_CONTEXTO_NO_RULE).
(** context.c:228-270 *)
Definition c_contexto_with_rule : cfun := mkfun U8 [] [("cp", U32)] []
 (test (cases ([183; 885; 1523; 1524] ++ arabic_indic ++ ext_arabic_indic ++ [12539]) "cp")
    ret 1
  else
    ret 0).

(** idna.c:54-85; of the NFCQCMap only "check" is used, and -1 stands for NULL. *)
Definition c_isNFC : cfun := mkfun I32 ["label"] [("len", U64)] [("lastCanonicalClass", I32); ("result", I32); ("it", U64); ("ch", U32); ("canonicalClass", I32); ("map", I32)]
 ("lastCanonicalClass" <- 0;;
  "result" <- 1;;
  for_ ("it" <- 0; "it" < "len"; SExp (EPost "it"))
    ("ch" <- "label" @ "it";;
     when ("ch" >= 65536)
       SExp (EPost "it");;
     "canonicalClass" <- ECall "uc_combining_class" [] [EVar "ch"];;
     when ("lastCanonicalClass" > "canonicalClass" AND "canonicalClass" != 0)
       ret 0;;
     "map" <- ECall "get_nfcqc_map" [] [EVar "ch"];;
     when ("map" != int 0 - int 1)
       (when ("map")
          ret 0;;
        "result" <- int 0 - int 1);;
     "lastCanonicalClass" <- "canonicalClass");;
  SReturn "result").
(** idna.c:123-133 *)
Definition c_ascii_p : cfun := mkfun U8 ["src"] [("srclen", U64)] [("i", U64)]
 (for_ ("i" <- 0; "i" < "srclen"; SExp (EPost "i"))
    (when ("src" @ "i" >= 128)
       ret 0);;
  ret 1).

(** idna.c:135-296.  u32_normalize gives the length of the result, -1 for NULL, when
    errno is not ENOMEM; the memory is that of "memcmp normalized".  Of the IDNAMap only
    flag_index is used. *)
Definition map_is (flag : Z) : expr := ECall "map_is" [] [EVar "map"; int flag].
Definition c_label_test : cfun := mkfun I32 ["label"] [("what", I32); ("llen", U64)] [("plen", I64); ("ok", I32); ("i", U64); ("map", U32); ("rc", I32); ("transitional", I32)]
 (when ("what" & TEST_NFC)
    ("plen" <- ECall "u32_normalize" ["label"] [EVar "llen"];;
     when ("plen" == int 0 - int 1)
       ret IDN2_NFC;;
     "ok" <- ("llen" == "plen" AND ECall "memcmp normalized" ["label"] [EVar "plen"] == 0);;
     when (! "ok")
       ret IDN2_NOT_NFC);;
  when ("what" & TEST_2HYPHEN)
    (when ("llen" >= 4 AND "label" @ 2 == 45 AND "label" @ 3 == 45)
       ret IDN2_2HYPHEN);;
  when ("what" & TEST_HYPHEN_STARTEND)
    (when ("llen" > 0 AND ("label" @ 0 == 45 OR "label" @ ("llen" - 1) == 45))
       ret IDN2_HYPHEN_STARTEND);;
  when ("what" & TEST_LEADING_COMBINING)
    (when ("llen" > 0 AND ECall "uc_is_general_category M" [] ["label" @ 0])
       ret IDN2_LEADING_COMBINING);;
  when ("what" & TEST_DISALLOWED)
    (for_ ("i" <- 0; "i" < "llen"; SExp (EPost "i"))
       (when (ECall "_idn2_disallowed_p" [] ["label" @ "i"])
          (when (("what" & (TEST_TRANSITIONAL .| TEST_NONTRANSITIONAL)) AND ("what" & TEST_ALLOW_STD3_DISALLOWED))
             ("map" <- ECall "get_idna_map" [] ["label" @ "i"];;
              when (map_is FLG_DISALLOWED_STD3_VALID OR map_is FLG_DISALLOWED_STD3_MAPPED)
                SContinue);;
           ret IDN2_DISALLOWED)));;
  when ("what" & TEST_CONTEXTJ)
    (for_ ("i" <- 0; "i" < "llen"; SExp (EPost "i"))
       (when (ECall "_idn2_contextj_p" [] ["label" @ "i"])
          ret IDN2_CONTEXTJ));;
  when ("what" & TEST_CONTEXTJ_RULE)
    (for_ ("i" <- 0; "i" < "llen"; SExp (EPost "i"))
       ("rc" <- ECall "_idn2_contextj_rule" ["label"] [EVar "llen"; EVar "i"];;
        when ("rc" != IDN2_OK)
          SReturn "rc"));;
  when ("what" & TEST_CONTEXTO)
    (for_ ("i" <- 0; "i" < "llen"; SExp (EPost "i"))
       (when (ECall "_idn2_contexto_p" [] ["label" @ "i"])
          ret IDN2_CONTEXTO));;
  when ("what" & TEST_CONTEXTO_WITH_RULE)
    (for_ ("i" <- 0; "i" < "llen"; SExp (EPost "i"))
       (when (ECall "_idn2_contexto_p" [] ["label" @ "i"] AND ! ECall "_idn2_contexto_with_rule" [] ["label" @ "i"])
          ret IDN2_CONTEXTO_NO_RULE));;
  when ("what" & TEST_CONTEXTO_RULE)
    (for_ ("i" <- 0; "i" < "llen"; SExp (EPost "i"))
       ("rc" <- ECall "_idn2_contexto_rule" ["label"] [EVar "llen"; EVar "i"];;
        when ("rc" != IDN2_OK)
          SReturn "rc"));;
  when ("what" & TEST_UNASSIGNED)
    (for_ ("i" <- 0; "i" < "llen"; SExp (EPost "i"))
       (when (ECall "_idn2_unassigned_p" [] ["label" @ "i"])
          ret IDN2_UNASSIGNED));;
  when ("what" & TEST_BIDI)
    ("rc" <- ECall "_idn2_bidi" ["label"] [EVar "llen"];;
     when ("rc" != IDN2_OK)
       SReturn "rc");;
  when ("what" & (TEST_TRANSITIONAL .| TEST_NONTRANSITIONAL))
    ("transitional" <- ("what" & TEST_TRANSITIONAL);;
     for_ ("i" <- 0; "i" < "llen"; SExp (EPost "i"))
       (when ("label" @ "i" == 46)
          ret IDN2_DOT_IN_LABEL);;
     for_ ("i" <- 0; "i" < "llen"; SExp (EPost "i"))
       ("map" <- ECall "get_idna_map" [] ["label" @ "i"];;
        when (map_is FLG_VALID OR (! "transitional" AND map_is FLG_DEVIATION))
          SContinue;;
        when (("what" & TEST_ALLOW_STD3_DISALLOWED) AND (map_is FLG_DISALLOWED_STD3_VALID OR map_is FLG_DISALLOWED_STD3_MAPPED))
          SContinue;;
        SReturn ("transitional" ? int IDN2_INVALID_TRANSITIONAL : int IDN2_INVALID_NONTRANSITIONAL)));;
  ret IDN2_OK).

(** The functions these call: those of libunistring by [U], the tables of tables.c and
    tr46map.c by their models. *)
Section Program.
  Variable U : uenv.
  Definition of_bool (o : out bool) : res Z := match o with Ok b => Val (if b then 1 else 0) | _ => UB end.
  Definition one (f : Z -> res Z) (args : list (cty * Z)) (m : list carr) : res Z := match args, m with [(_, c)], [] => f c | _, _ => UB end.
  (** The first [n] elements of an array. *)
  Definition prefix (l : list (option Z)) (n : Z) : res (list Z) :=
    if (0 <=? n) && (n <=? zlen l) then fold_right (fun o r => match o with Some z => rbind r (fun l => Val (z :: l)) | None => UB end) (Val []) (firstn (Z.to_nat n) l) else UB.
  Definition on_label (f : list Z -> res Z) (args : list (cty * Z)) (m : list carr) : res Z :=
    match args, m with [(_, n)], [(_, l)] => rbind (prefix l n) f | _, _ => UB end.
  Definition unistring : list (string * (cty * (list (cty * Z) -> list carr -> res Z))) :=
    [("uc_bidi_category", (I32, one (fun c => Val (bidi_num (ue_bidi U c)))));
     ("uc_combining_class", (I32, one (fun c => Val (ue_ccc U c))));
     ("uc_joining_type", (I32, one (fun c => Val (joining_num (ue_join U c)))));
     ("uc_is_general_category M", (I32, one (fun c => Val (if ue_mark U c then 1 else 0))));
     ("u32_normalize", (I64, on_label (fun l => Val (match ue_nfc U l with Some p => zlen p | None => -1 end))));
     ("memcmp normalized", (I32, on_label (fun l => match ue_nfc U l with Some p => Val (if list_eqb l p then 0 else 1) | None => UB end)))].
  Definition strcmp_script (name : string) : string * (cty * (list (cty * Z) -> list carr -> res Z)) :=
    (String.append "strcmp script " name, (I32, one (fun c => Val (if String.eqb (script_name U c) name then 0 else 1)))).
  Definition tables : list (string * (cty * (list (cty * Z) -> list carr -> res Z))) :=
    [("_idn2_disallowed_p", (I32, one (fun c => of_bool (disallowed_p c)))); ("_idn2_contextj_p", (I32, one (fun c => of_bool (contextj_p c))));
     ("_idn2_contexto_p", (I32, one (fun c => of_bool (contexto_p c)))); ("_idn2_unassigned_p", (I32, one (fun c => of_bool (unassigned_p c))));
     ("get_nfcqc_map", (I32, one (fun c => match get_nfcqc_map c with Ok (Some q) => Val (nq_check q) | Ok None => Val (-1) | _ => UB end)));
     ("get_idna_map", (U32, one (fun c => match get_idna_map c with Ok (m, _) => Val (m_idx m) | _ => UB end)));
     ("map_is", (I32, fun args m => match args, m with [(_, i); (_, f)], [] => of_bool (Tr46Map.map_is (IdnaMap 0 0 0 0 i) f) | _, _ => UB end))].
  Definition label_lib : clib := fun f => assoc f (unistring ++ map strcmp_script ["Greek"; "Hebrew"; "Hiragana"; "Katakana"; "Han"] ++ tables).
  Definition label_program : prog := mkprog label_lib
    [("_isBidi", c_isBidi); ("_idn2_bidi", c_bidi); ("_idn2_contextj_rule", c_contextj_rule); ("_idn2_contexto_rule", c_contexto_rule);
     ("_idn2_contexto_with_rule", c_contexto_with_rule)].
End Program.
Lemma label_sequenced : forallb (fun f => all_sequenced (f_body f) && reads_only (f_body f))
  [c_isBidi; c_bidi; c_contextj_rule; c_contexto_rule; c_contexto_with_rule; c_isNFC; c_ascii_p; c_label_test] = true.
Proof. reflexivity. Qed.
