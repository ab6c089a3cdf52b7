(** The text of idn2_register_ul of lib/register.c in the language of CLang.v, with the conventions
    of CRegister.v and CWrap.v. *)
From Coq Require Import String.
From Verif Require Import Base Uenv Utf8 Lookup CLang CLabel CLookup CRegister CWrap CUni.
Local Open Scope string_scope.
Local Open Scope list_scope.
Local Open Scope Z_scope.
Local Open Scope c_scope.

Local Notation ret z := (SReturn (int z)).

(** register.c:238-264; "has_ulabel", "has_alabel", "has_insertname" and "utf8ulabel != NULL" tell
    whether these are NULL.  idn2_register_u8 stores to *insertname if that is not NULL. *)
Definition c_register_ul : cfun := mkfun I32 ["ulabel"; "utf8ulabel"; "alabel"; "insertname"] [("flags", I32); ("has_ulabel", I32); ("has_alabel", I32); ("has_insertname", I32)]
 [("utf8ulabel != NULL", I32); ("rc", I32); ("k", U64)]
 ("utf8ulabel != NULL" <- 0;;
  when ("has_ulabel")
    (when (ECall "u8_strconv_from_encoding" ["ulabel"] [] == int 0 - int 1)
       ret IDN2_ICONV_FAIL;;
     fill "utf8ulabel" 0 (ECast U64 (ECall "u8_strconv_from_encoding" ["ulabel"] [])) (ECall "u8_strconv_from_encoding result" ["ulabel"] [EVar "k"]);;
     "utf8ulabel != NULL" <- 1);;
  "rc" <- ECall "idn2_register_u8" ["utf8ulabel"; "alabel"] [EVar "utf8ulabel != NULL"; EVar "has_alabel"; "flags" .| IDN2_NFC_INPUT];;
  when ("rc" == IDN2_OK)
    (when ("has_insertname")
       fill "insertname" 0 (ECall "idn2_register_u8 size" ["utf8ulabel"; "alabel"] [EVar "utf8ulabel != NULL"; EVar "has_alabel"; "flags" .| IDN2_NFC_INPUT])
         (ECall "idn2_register_u8 *insertname" ["utf8ulabel"; "alabel"] [EVar "utf8ulabel != NULL"; EVar "has_alabel"; "flags" .| IDN2_NFC_INPUT; EVar "k"]));;
  SReturn "rc").

(** A string that may be NULL. *)
Definition maybe (has : Z) (l : list (option Z)) : res (option (list Z)) := if has =? 0 then Val None else rbind (cstr l) (fun s => Val (Some s)).
(** The functions it calls: [reg] is idn2_register_u8, [from] converts from the encoding of the
    locale. *)
Section Program.
  Variable reg : option (list Z) -> option (list Z) -> Z -> Z + list Z.
  Variable from : list Z -> option (list Z).
  Definition on_two (h : Z + list Z -> res Z) (p q f : Z) (l m : list (option Z)) : res Z := rbind (maybe p l) (fun u => rbind (maybe q m) (fun a => h (reg u a f))).
  Definition regul_calls : list (string * (cty * (list (cty * Z) -> list carr -> res Z))) :=
    [("u8_strconv_from_encoding", (I64, fun args m => match args, m with [], [(_, l)] => on_string (fun s => size_or_null (with_nul (from s))) l | _, _ => UB end));
     ("u8_strconv_from_encoding result", (U8, fun args m => match args, m with [(_, k)], [(_, l)] => on_string (fun s => element (with_nul (from s)) k) l | _, _ => UB end));
     ("idn2_register_u8", (I32, fun args m => match args, m with [(_, p); (_, q); (_, f)], [(_, l); (_, r)] => on_two rc_sum p q f l r | _, _ => UB end));
     ("idn2_register_u8 size", (U64, fun args m => match args, m with [(_, p); (_, q); (_, f)], [(_, l); (_, r)] => on_two size_sum p q f l r | _, _ => UB end));
     ("idn2_register_u8 *insertname", (U8, fun args m => match args, m with [(_, p); (_, q); (_, f); (_, k)], [(_, l); (_, r)] => on_two (fun x => elt_sum x k) p q f l r | _, _ => UB end))].
  Definition regul_program : prog := mkprog (fun f => assoc f regul_calls) [].
End Program.
Lemma regul_sequenced : forallb (fun f => all_sequenced (f_body f)) [c_register_ul] = true.
Proof. reflexivity. Qed.
