(** Model of lib/version.c, with strverscmp. *)
From Verif Require Import Base.

(** strverscmp is not in /repo: it comes from glibc or gnulib.  What follows is
    their common implementation (string/strverscmp.c), with the tables next_state
    and result_type written as matches.  A string is a list of bytes, none zero;
    [hd 0] reads the terminator. *)
Definition isdigit (c : Z) : bool := (48 <=? c) && (c <=? 57).

(** The symbol classes x (other), d (1-9) and 0. *)
Inductive sym := SX | SD | S0.
Definition sym_of (c : Z) : sym := if c =? 48 then S0 else if isdigit c then SD else SX.

(** States: normal, integral part, fractional part, leading zeroes only. *)
Inductive vstate := S_N | S_I | S_F | S_Z.
Definition next_state (s : vstate) (y : sym) : vstate :=
  match s, y with
  | _, SX => S_N
  | S_N, SD => S_I | S_N, S0 => S_Z
  | S_I, SD => S_I | S_I, S0 => S_I
  | S_F, SD => S_F | S_F, S0 => S_F
  | S_Z, SD => S_F | S_Z, S0 => S_Z
  end.

Inductive vresult := CMP | LEN | LESS | MORE.
Definition result_type (s : vstate) (y1 y2 : sym) : vresult :=
  match s, y1, y2 with
  | S_N, SD, SD => LEN
  | S_N, _, _ => CMP
  | S_I, SX, SX => CMP
  | S_I, SX, _ => LESS
  | S_I, _, SX => MORE
  | S_I, _, _ => LEN
  | S_F, _, _ => CMP
  | S_Z, SX, SX => CMP
  | S_Z, SX, _ => MORE
  | S_Z, _, SX => LESS
  | S_Z, _, _ => CMP
  end.

(** while (isdigit ( *p1++)) if (!isdigit ( *p2++)) return 1;
    return isdigit ( *p2) ? -1 : diff; *)
Fixpoint len_loop (r1 r2 : list Z) (diff : Z) : Z :=
  match r1 with
  | c1 :: r1' =>
      if isdigit c1 then
        match r2 with
        | c2 :: r2' => if isdigit c2 then len_loop r1' r2' diff else 1
        | [] => 1
        end
      else if isdigit (hd 0 r2) then -1 else diff
  | [] => if isdigit (hd 0 r2) then -1 else diff
  end.

Fixpoint vcmp (s : vstate) (s1 s2 : list Z) : Z :=
  let c1 := hd 0 s1 in
  let c2 := hd 0 s2 in
  let diff := c1 - c2 in
  if diff =? 0 then
    match s1 with
    | [] => 0
    | _ :: r1 => vcmp (next_state s (sym_of c1)) r1 (tl s2)
    end
  else
    match result_type s (sym_of c1) (sym_of c2) with
    | CMP => diff
    | LEN => len_loop (tl s1) (tl s2) diff
    | LESS => -1
    | MORE => 1
    end.

Definition strverscmp (s1 s2 : list Z) : Z := vcmp S_N s1 s2.

(** lib/version.c:59-66, idn2_check_version.  [version] is IDN2_VERSION, which the
    build system puts in. *)
Definition check_version (version : list Z) (req : option (list Z)) : option (list Z) :=
  match req with
  | None => Some version
  | Some r => if strverscmp r version <=? 0 then Some version else None
  end.
