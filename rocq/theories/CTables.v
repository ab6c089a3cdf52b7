(** The text of lib/tables.c and lib/tr46map.c in the language of CLang.v.

    An array of structures is one array for each member, and a pointer to an element is
    its index, -1 for NULL; an object of structure type is an array with one element for
    each member.  A pointer into an array of bytes is an index as well.  An array of file
    scope is passed to the functions that use it.  What is assigned to a uint16_t or to a
    bit-field keeps its low bits ([bits]; 6.3.1.3, 6.7.2.1); these are of type int in an
    expression (6.3.1.1/2).  _fill_map writes to the caller's structure and is put into
    the text of the two callers. *)
From Coq Require Import String.
From Verif Require Import Base Uenv DataTypes Tables Gentr46 CLang.
Local Open Scope string_scope.
Local Open Scope list_scope.
Local Open Scope Z_scope.
Local Open Scope c_scope.

Local Notation ret z := (SReturn (int z)).
Local Notation NULL := (int (-1)).
Definition bits (w : Z) (e : expr) : expr := EBin BAnd e (EInt U32 (Z.ones w)).

(** tables.c:37-45; bsearch passes the key as "m1", in which only "start" is set. *)
Definition entries (m : string) : list string := [String.append m "->start"; String.append m "->end"; String.append m "->state"].
Definition c_compare : cfun := mkfun I32 (entries "m1" ++ entries "m2") [("m2", U64)] []
 (when ("m1->start" @ 0 < "m2->start" @ "m2")
    ret (-1);;
  when ("m1->start" @ 0 > "m2->end" @ "m2")
    ret 1;;
  ret 0).
(** tables.c:47-64 *)
Definition c_property (idna_table_size : Z) : cfun := mkfun I32 (entries "idna_table") [("cp", U32)] [("result", I64); ("key.start", U32)]
 ("key.start" <- "cp";;
  "result" <- ECall "bsearch _compare" (entries "idna_table") [EVar "key.start"; EInt U64 idna_table_size];;
  SReturn ("result" != NULL ? "idna_table->state" @ "result" : int 4)).
(** tables.c:66-88; the enumerators of data.h:36-39 *)
Definition prop_num (p : prop) : Z := match p with PVALID => 0 | CONTEXTJ => 1 | CONTEXTO => 2 | DISALLOWED => 3 | UNASSIGNED => 4 end.
Definition c_is (p : prop) : cfun := mkfun I32 (entries "idna_table") [("cp", U32)] []
 (SReturn (ECall "property" (entries "idna_table") [EVar "cp"] == int (prop_num p))).

(** tr46map.c:40-70; [bytes] is the array that p points into. *)
Definition members : list string := ["map->cp1"; "map->range"; "map->nmappings"; "map->offset"; "map->flag_index"].
Definition c_fill_map (bytes : string) : stmt :=
 (test ("c" <= 255)
    (SStore "map->cp1" 0 (bytes @ (EPost "p"));;
     SStore "map->range" 0 (bits 16 (bytes @ (EPost "p"))))
  else test ("c" <= 65535)
    (SStore "map->cp1" 0 ((bytes @ ("p" + 0) << 8) .| bytes @ ("p" + 1));;
     SStore "map->range" 0 (bits 16 ((bytes @ ("p" + 2) << 8) .| bytes @ ("p" + 3)));;
     "p" += 4)
  else
    (SStore "map->cp1" 0 ((bytes @ ("p" + 0) << 16) .| (bytes @ ("p" + 1) << 8) .| bytes @ ("p" + 2));;
     SStore "map->range" 0 (bits 16 ((bytes @ ("p" + 3) << 8) .| bytes @ ("p" + 4)));;
     "p" += 5);;
  "value" <- ((bytes @ ("p" + 0) << 16) .| (bytes @ ("p" + 1) << 8) .| bytes @ ("p" + 2));;
  SStore "map->flag_index" 0 (bits 3 ("value" & 7));;
  SStore "map->offset" 0 (bits 14 (("value" >> 3) & 16383));;
  SStore "map->nmappings" 0 (bits 5 (("value" >> 17) & 31))).
(** tr46map.c:72-84; "map" is a local structure. *)
Definition c_compare_idna_map : cfun := mkfun I32 ("bytes" :: members) [("c", U32); ("p", I64)] [("value", U32)]
 (c_fill_map "bytes";;
  when ("c" < "map->cp1" @ 0)
    ret (-1);;
  when ("c" > "map->cp1" @ 0 + "map->range" @ 0)
    ret 1;;
  ret 0).
(** tr46map.c:104-135; p points into the array that was searched. *)
Definition c_get_idna_map (sizeof8 sizeof16 sizeof24 : Z) : cfun := mkfun I32 (["idna_map_8"; "idna_map_16"; "idna_map_24"] ++ members) [("c", U32)] [("p", I64); ("value", U32)]
 (test ("c" <= 255)
    "p" <- ECall "bsearch _compare_idna_map" ["idna_map_8"] [EVar "c"; EInt U64 sizeof8 / 5; int 5]
  else test ("c" <= 65535)
    "p" <- ECall "bsearch _compare_idna_map" ["idna_map_16"] [EVar "c"; EInt U64 sizeof16 / 7; int 7]
  else test ("c" <= 16777215)
    "p" <- ECall "bsearch _compare_idna_map" ["idna_map_24"] [EVar "c"; EInt U64 sizeof24 / 8; int 8]
  else
    "p" <- NULL;;
  when ("p" == NULL)
    (SStore "map->cp1" 0 0;; SStore "map->range" 0 0;; SStore "map->nmappings" 0 0;; SStore "map->offset" 0 0;; SStore "map->flag_index" 0 0;;
     ret (-1));;
  test ("c" <= 255) c_fill_map "idna_map_8" else test ("c" <= 65535) c_fill_map "idna_map_16" else c_fill_map "idna_map_24";;
  ret 0).
(** tr46map.c:137-141 *)
Definition c_map_is : cfun := mkfun I32 ["map->flag_index"; "idna_flags"] [("flags", U32)] []
 (SReturn (("idna_flags" @ ("map->flag_index" @ 0) & "flags") == "flags")).
(** tr46map.c:143-160 *)
Definition c_compare_nfcqc_map : cfun := mkfun I32 ["m2->cp1"; "m2->cp2"; "m2->check"] [("c", U32); ("m2", U64)] []
 (when ("c" < "m2->cp1" @ "m2")
    ret (-1);;
  when ("c" > "m2->cp2" @ "m2")
    ret 1;;
  ret 0).
Definition c_get_nfcqc_map (countof : Z) : cfun := mkfun I64 ["nfcqc_map->cp1"; "nfcqc_map->cp2"; "nfcqc_map->check"] [("c", U32)] []
 (SReturn (ECall "bsearch _compare_nfcqc_map" ["nfcqc_map->cp1"; "nfcqc_map->cp2"; "nfcqc_map->check"] [EVar "c"; EInt U64 countof])).
(** tr46map.c:162-179; "do s while (c)" is for (;;) { s; if (!c) break; }. *)
Definition c_get_map_data : cfun := mkfun I32 ["dst"; "map->nmappings"; "map->offset"; "mapdata"] [] [("n", I32); ("src", U64); ("cp", U32); ("d", U64)]
 ("d" <- 0;;
  "n" <- "map->nmappings" @ 0;;
  "src" <- "map->offset" @ 0;;
  SLoop ("n" > 0) (SExp (EOp Sub "n" 1))
    ("cp" <- 0;;
     SLoop 1 SSkip
       ("cp" <- (("cp" << 7) .| ("mapdata" @ "src" & 127));;
        when (! ("mapdata" @ (EPost "src") & 128))
          SBreak);;
     SStore "dst" (EPost "d") "cp");;
  SReturn ("map->nmappings" @ 0)).

(** The C library's bsearch for a comparison function and the number of elements: the
    index of an element found, or -1. *)
Definition bsearch_fun : Type := (Z -> res Z) -> Z -> res Z.
Section Program.
  Variable bs : bsearch_fun.
  Variable table_size : Z.
  (** A call of a comparison function through the pointer. *)
  Definition compar (f : cfun) (args : list (cty * Z)) (m : list carr) : res Z := calls (mkprog no_lib [("compar", f)]) 1 0 "compar" args m.
  Definition fresh (t : cty) : carr := (t, [None]).
  Definition bsearch_lib : clib := fun f => assoc f
    [("bsearch _compare", (I64, fun args m => match args, m with [(_, k); (_, n)], [s; e; p] =>
       bs (fun i => compar c_compare [(U64, i)] [(U32, [Some k]); fresh U32; fresh I32; s; e; p]) n | _, _ => UB end));
     ("bsearch _compare_idna_map", (I64, fun args m => match args, m with [(_, c); (_, n); (_, size)], [a] =>
       rbind (bs (fun i => compar c_compare_idna_map [(U32, c); (U64, (i * size)%Z)] [a; fresh U32; fresh I32; fresh I32; fresh I32; fresh I32]) n)
         (fun i => Val (if (i =? -1)%Z then -1 else (i * size)%Z)) | _, _ => UB end));
     ("bsearch _compare_nfcqc_map", (I64, fun args m => match args, m with [(_, c); (_, n)], [a; b; q] =>
       bs (fun i => compar c_compare_nfcqc_map [(U32, c); (U64, i)] [a; b; q]) n | _, _ => UB end))].
  Definition table_program : prog := mkprog bsearch_lib [("property", c_property table_size)].
End Program.
(** The arrays of data.c and tr46map_data.c.  [ch] is the type char. *)
Definition idna_arrays (t : list idna_entry) : list (string * carr) :=
  [("idna_table->start", (U32, map (fun e => Some (ie_start e)) t)); ("idna_table->end", (U32, map (fun e => Some (ie_end e)) t));
   ("idna_table->state", (I32, map (fun e => Some (prop_num (ie_state e))) t))].
Definition byte_array (name : string) (l : list Z) : string * carr := (name, (U8, map Some l)).
Definition map_arrays (cp1 range n off idx : option Z) : list (string * carr) :=
  [("map->cp1", (U32, [cp1])); ("map->range", (I32, [range])); ("map->nmappings", (I32, [n])); ("map->offset", (I32, [off])); ("map->flag_index", (I32, [idx]))].
Definition nfcqc_arrays (ch : cty) (t : list nfcqc) : list (string * carr) :=
  [("nfcqc_map->cp1", (U32, map (fun q => Some (nq1 q)) t)); ("nfcqc_map->cp2", (U32, map (fun q => Some (nq2 q)) t));
   ("nfcqc_map->check", (ch, map (fun q => Some (nq_check q)) t))].
Lemma table_sequenced : forallb (fun f => all_sequenced (f_body f))
  [c_compare; c_property 0; c_is PVALID; c_compare_idna_map; c_get_idna_map 0 0 0; c_map_is; c_compare_nfcqc_map; c_get_nfcqc_map 0; c_get_map_data] = true.
Proof. reflexivity. Qed.
