(** Model of the command line tool, src/idn2.c. *)
From Verif Require Import Base Uenv Lookup Api Register.

(** struct gengetopt_args_info (src/idn2.ggo:16-25 and the implicit --help and
    --version): which options were given, and the other arguments.  The parser
    itself is generated and not modelled. *)
Record options := Options {
  version_given : bool;
  help_given : bool;
  quiet_given : bool;
  debug_given : bool;
  register_given : bool;
  decode_given : bool;
  tr46t_given : bool;
  tr46nt_given : bool;
  no_tr46_given : bool;
  usestd3asciirules_given : bool;
  no_alabelroundtrip_given : bool;
  inputs : list (list Z)
}.

(** What the program writes.  Texts of fixed content stand for themselves; a
    hexdump (src/idn2.c:105-131) is its prefix and string; error() adds the program
    name, a tag and the message of the code. *)
Inductive tag := Tregister | Tdecode | TtoAscii.
Inductive dump := Dinput | Doutput.
Inductive event :=
| Stdout (s : list Z)
| Version
| Usage
| Greeting
| Charset
| Invitation
| Hexdump (p : dump) (s : list Z)
| Complaint (t : tag) (rc : Z)
| InputError.

Definition EXIT_SUCCESS : Z := 0.
Definition EXIT_FAILURE : Z := 1.

(** The surroundings: Unicode data, locale, what stdin holds and whether reading it
    ends in an error, whether it is a terminal; WARRANTY and CONDITIONS of blurbs.h. *)
Record world := World {
  w_uenv : uenv;
  w_locale : locale;
  w_junk : ptr;
  w_stdin : list Z;
  w_ferror : bool;
  w_tty : bool;
  w_warranty : list Z;
  w_conditions : list Z
}.

Definition show_w : list Z := [115;104;111;119;32;119].
Definition show_c : list Z := [115;104;111;119;32;99].

(** src/idn2.c:138-144: the string in [readbuf], without a newline at its end. *)
Definition chomp (s : list Z) : list Z := if last s 0 =? 10 then removelast s else s.

Definition eq_string (a b : list Z) : bool := if list_eq_dec Z.eq_dec a b then true else false.

(** src/idn2.c:135-186, process_input: what is written, and whether the program goes
    on (error() with a status ends it).  [output] is not initialised: printing it
    without the library having set it, or set to NULL, is undefined. *)
Definition process_input (w : world) (a : options) (readbuf : list Z) (flags : Z) : out (list event * bool) :=
  let s := chomp (upto0 readbuf) in
  if eq_string s show_w then Ok ([Stdout (w_warranty w ++ [10])], true)
  else if eq_string s show_c then Ok ([Stdout (w_conditions w ++ [10])], true)
  else
    let pre := if debug_given a then [Hexdump Dinput s] else [] in
    let (call, t) :=
      if register_given a then (register_ul (w_uenv w) (w_locale w) (Some s) None (Some (w_junk w)) flags, Tregister)
      else if decode_given a then (to_unicode_lzlz (w_locale w) (w_junk w) (Some s) (Some (w_junk w)) 0, Tdecode)
      else (to_ascii_lz (w_uenv w) (w_locale w) (Some s) (Some (w_junk w)) flags, TtoAscii) in
    let* (rc, output) := call in
    if rc =? IDN2_OK then
      match output with
      | Some (Some r) => Ok (pre ++ (if debug_given a then [Hexdump Doutput s] else []) ++ [Stdout (r ++ [10])], true)
      | _ => Undef
      end
    else Ok (pre ++ [Complaint t rc], false).

(** src/idn2.c:192, 224-235. *)
Definition cli_flags (a : options) : Z :=
  let flags := if tr46t_given a then IDN2_TRANSITIONAL
               else if tr46nt_given a then IDN2_NONTRANSITIONAL
               else if no_tr46_given a then IDN2_NO_TR46
               else IDN2_NONTRANSITIONAL in
  let flags := if negb (flags =? 0) && usestd3asciirules_given a then Z.lor flags IDN2_USE_STD3_ASCII_RULES else flags in
  if negb (flags =? 0) && no_alabelroundtrip_given a then Z.lor flags IDN2_NO_ALABEL_ROUNDTRIP else flags.

(** src/idn2.c:237-238, 245-246: the inputs one after the other. *)
Fixpoint process_all (w : world) (a : options) (l : list (list Z)) (flags : Z) : out (list event * bool) :=
  match l with
  | [] => Ok ([], true)
  | x :: r =>
      let* (e, go) := process_input w a x flags in
      if go then let* (e', go') := process_all w a r flags in Ok (e ++ e', go') else Ok (e, false)
  end.

(** What successive calls of getline deliver: lines with their newline, the last one
    possibly without. *)
Fixpoint getlines (s : list Z) : list (list Z) :=
  match s with
  | [] => []
  | c :: r =>
      if c =? 10 then [c] :: getlines r
      else match getlines r with
           | [] => [[c]]
           | l :: ls => (c :: l) :: ls
           end
  end.

(** src/idn2.c:188-257, main; [a]: NULL if cmdline_parser failed. *)
Definition main (w : world) (a : option options) : out (list event * Z) :=
  match a with
  | None => Ok ([], EXIT_FAILURE)
  | Some a =>
      if version_given a then Ok ([Version], EXIT_SUCCESS)
      else if help_given a then Ok ([Usage], EXIT_SUCCESS)
      else
        let idle := negb (quiet_given a) && (match inputs a with [] => true | _ => false end) && w_tty w in
        let pre := (if idle then [Greeting] else []) ++ (if debug_given a then [Charset] else []) ++ (if idle then [Invitation] else []) in
        let flags := cli_flags a in
        let* (e1, go1) := process_all w a (inputs a) (Z.lor flags IDN2_NFC_INPUT) in
        if negb go1 then Ok (pre ++ e1, EXIT_FAILURE)
        else
          let* (e2, go2) := match inputs a with
                            | [] => process_all w a (getlines (w_stdin w)) flags
                            | _ => Ok ([], true)
                            end in
          if negb go2 then Ok (pre ++ e1 ++ e2, EXIT_FAILURE)
          else if w_ferror w then Ok (pre ++ e1 ++ e2 ++ [InputError], EXIT_FAILURE)
          else Ok (pre ++ e1 ++ e2, EXIT_SUCCESS)
  end.
