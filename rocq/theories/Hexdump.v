(** The text of the debug output of the command line tool, src/idn2.c:105-131. *)
From Coq Require Import String.
From Verif Require Import Base Uenv Utf8 Lookup Api Scan GenText Cli.
Local Open Scope list_scope.
Local Open Scope Z_scope.

(** The value of a plain char that holds the byte [b], and the conversion of an int
    to unsigned. *)
Definition schar (b : Z) : Z := if b <? 128 then b else b - 256.
Definition to_unsigned (x : Z) : Z := x mod 2 ^ 32.
(** printf's %0[w]x: small letters, zeros up to the width. *)
Definition fmt_0x (w : nat) (x : Z) : list Z :=
  let d := map c_tolower (digits 16 x) in repeat 48 (w - List.length d) ++ d.

(** src/idn2.c:118-120, 123-125, 128-130: one line for each element from index [i]
    on; [arg] is what the loop makes of the element, a line is
    "<prefix>[%lu] = <head>%0[w]x\n". *)
Fixpoint dump_loop (prefix head : list Z) (w : nat) (arg : Z -> Z) (i : Z) (l : list Z) : list Z :=
  match l with
  | [] => []
  | c :: r => prefix ++ text "[" ++ fmt_d i ++ text "] = " ++ head ++ fmt_0x w (arg c) ++ NL ++ dump_loop prefix head w arg (i + 1) r
  end.

(** src/idn2.c:105-131.  The conversion is u8_strconv_from_encoding. *)
Definition hexdump (L : locale) (prefix str : list Z) : list Z :=
  let u8 := from_locale L str in
  dump_loop prefix (text "0x") 2 (fun b => to_unsigned (Z.land (schar b) 0xFF)) 0 str ++
  match u8 with
  | None => []
  | Some u =>
      (if eq_string str u then [] else dump_loop (text "UTF-8 " ++ prefix) (text "0x") 2 (fun b => to_unsigned (Z.land b 0xFF)) 0 u) ++
      match u8_to_u32 u with
      | None => []
      | Some u32 => dump_loop (text "UCS-4 " ++ prefix) (text "U+") 4 (fun c => c) 0 u32
      end
  end.

(** src/idn2.c:158, 179. *)
Definition dump_prefix (p : dump) : list Z := match p with Dinput => text "input" | Doutput => text "output" end.
(** What a run of the tool writes on stderr for --debug about names. *)
Definition dumped (L : locale) (ev : list event) : list Z :=
  flat_map (fun e => match e with Hexdump p s => hexdump L (dump_prefix p) s | _ => [] end) ev.
