(** How the generators lib/gentr46map.c and lib/gendata.c read their text files.
    Texts are lists of bytes.  A diagnostic, an exit or a C text that does not
    compile is [Fail]; use of a NULL pointer and a %X conversion whose value
    does not fit an unsigned int are [Undef].  fgets, isspace, strpbrk, strtok
    and sscanf are those of the C library in the C locale (no setlocale here). *)
From Coq Require Import String Ascii.
From Verif Require Import Base DataTypes Gentr46 Api Tables.
Local Open Scope list_scope.
Local Open Scope Z_scope.

Definition bit (b : bool) (x : Z) : Z := if b then Z.succ_double x else Z.double x.
Definition byte_of (a : ascii) : Z :=
  match a with Ascii b0 b1 b2 b3 b4 b5 b6 b7 => bit b0 (bit b1 (bit b2 (bit b3 (bit b4 (bit b5 (bit b6 (bit b7 0))))))) end.
(** The bytes of a Coq string. *)
Fixpoint text (s : string) : list Z :=
  match s with
  | EmptyString => []
  | String a r => byte_of a :: text r
  end.

Definition BAD_DATA : Z := -1.

(** isspace; bytes from 128 on are no white space. *)
Definition isspace (c : Z) : bool := (c =? 32) || ((9 <=? c) && (c <=? 13)).
(** while (isspace ( *s)) s++; *)
Fixpoint skip_space (s : list Z) : list Z :=
  match s with
  | c :: r => if isspace c then skip_space r else s
  | [] => []
  end.
(** while (e > s && isspace (e[-1])) *--e = 0; *)
Definition chop_space (s : list Z) : list Z := rev (skip_space (rev s)).

(** strpbrk (s, ";#"): what precedes the first such byte, and the rest from it on. *)
Fixpoint find_delim (s : list Z) : list Z * list Z :=
  match s with
  | [] => ([], [])
  | c :: r => if (c =? 59) || (c =? 35) then ([], s) else let (a, b) := find_delim r in (c :: a, b)
  end.

(** gentr46map.c:67-93 [_nextField]: field (or NULL) and the new *line. *)
Definition next_field (s : list Z) : option (list Z) * list Z :=
  match s with
  | [] => (None, [])
  | _ =>
      let (f, r) := find_delim s in
      (Some (chop_space (skip_space f)),
       match r with
       | c :: r' => if c =? 59 then r' else []
       | [] => []
       end)
  end.

(** fgets (buf, n + 1, fp): at most [n] bytes, up to a newline. *)
Fixpoint fgets (n : nat) (t : list Z) : list Z * list Z :=
  match n, t with
  | S n', c :: r => if c =? 10 then ([c], r) else let (a, b) := fgets n' r in (c :: a, b)
  | _, _ => ([], t)
  end.
Definition BUF : nat := Z.to_nat 1023.
(** The successive contents of buf. *)
Fixpoint buffers (fuel : nat) (t : list Z) : out (list (list Z)) :=
  match t with
  | [] => Ok []
  | _ =>
      match fuel with
      | O => NoFuel
      | S fuel' => let (a, b) := fgets BUF t in let* r := buffers fuel' b in Ok (upto0 a :: r)
      end
  end.

(** gentr46map.c:95-131 [_scan_file] with a callback that yields a row, or none
    for a line it ignores.  (The loop meant to strip line ends, lines 114-115,
    looks at the terminator and does nothing.) *)
Fixpoint scan_lines {A} (scan : list Z -> out (option A)) (ls : list (list Z)) : out (list A) :=
  match ls with
  | [] => Ok []
  | l :: r =>
      match skip_space l with
      | [] => scan_lines scan r
      | c :: l' =>
          if c =? 35 then scan_lines scan r
          else
            let* x := scan (c :: l') in
            let* xs := scan_lines scan r in
            Ok (match x with Some a => a :: xs | None => xs end)
      end
  end.
Definition scan_file {A} (scan : list Z -> out (option A)) (t : list Z) : out (list A) :=
  let* ls := buffers (length t) t in scan_lines scan ls.

Definition hex_digit (c : Z) : option Z :=
  if (48 <=? c) && (c <=? 57) then Some (c - 48)
  else if (65 <=? c) && (c <=? 70) then Some (c - 55)
  else if (97 <=? c) && (c <=? 102) then Some (c - 87)
  else None.
(** The digits at the head of [s]: value, rest, and whether there are any. *)
Fixpoint hex_digits (s : list Z) (v : Z) : Z * list Z :=
  match s with
  | c :: r => match hex_digit c with Some d => hex_digits r (16 * v + d) | None => (v, s) end
  | [] => (v, [])
  end.
(** One %X of sscanf: white space, sign, 0x, digits; [None]: matching failure. *)
Definition scan_hex (s : list Z) : out (option (Z * list Z)) :=
  let s := skip_space s in
  let (neg, s) := match s with
                  | c :: r => if c =? 45 then (true, r) else if c =? 43 then (false, r) else (false, s)
                  | [] => (false, s)
                  end in
  let s := match s with
           | a :: b :: r => if (a =? 48) && ((b =? 120) || (b =? 88)) then r else s
           | _ => s
           end in
  match s with
  | c :: _ =>
      match hex_digit c with
      | None => Ok None
      | Some _ =>
          let (v, r) := hex_digits s 0 in
          if 0xffffffff <? v then Undef
          else Ok (Some (if neg then u32 (- v) else v, r))
      end
  | [] => Ok None
  end.

(** sscanf (codepoint, "%X..%X", &map->cp1, &map->cp2) and the tests of its
    result (gentr46map.c:244-252, 373-381). *)
Definition scan_range (s : list Z) : out (Z * Z) :=
  let* a := scan_hex s in
  match a with
  | None => Fail BAD_DATA
  | Some (lo, r) =>
      match r with
      | 46 :: 46 :: r' =>
          let* b := scan_hex r' in
          match b with
          | Some (hi, _) => Ok (lo, hi)
          | None => Ok (lo, lo)
          end
      | _ => Ok (lo, lo)
      end
  end.

(** while ((n = sscanf (mapping, " %X%n", &cp, &pos)) == 1) (gentr46map.c:291-310). *)
Fixpoint scan_mapping (fuel : nat) (s : list Z) : out (list Z) :=
  match fuel with
  | O => NoFuel
  | S fuel' =>
      let* a := scan_hex s in
      match a with
      | None => Ok []
      | Some (cp, r) => let* m := scan_mapping fuel' r in Ok (cp :: m)
      end
  end.

Fixpoint same (a b : list Z) : bool :=
  match a, b with
  | [], [] => true
  | x :: a', y :: b' => (x =? y) && same a' b'
  | _, _ => false
  end.

(** gentr46map.c:266-284. *)
Definition scan_status (s : list Z) : out status :=
  if same s (text "valid") then Ok Valid
  else if same s (text "mapped") then Ok Mapped
  else if same s (text "disallowed") then Ok Disallowed
  else if same s (text "ignored") then Ok Ignored
  else if same s (text "deviation") then Ok Deviation
  else if same s (text "disallowed_STD3_mapped") then Ok Std3Mapped
  else if same s (text "disallowed_STD3_valid") then Ok Std3Valid
  else Fail BAD_DATA.

(** gentr46map.c:233-310: the text part of [read_IdnaMappings]; what it does
    with the row is [read_row] of Gentr46.v, which does not depend on later
    lines, so that all lines may be scanned first.  A mapping field that does
    not start with a number is taken for an empty one without a word (line 317
    is not reached); here that is [Fail] too. *)
Definition scan_idna (l : list Z) : out (option row) :=
  let (codepoint, l) := next_field l in
  let (flag, l) := next_field l in
  let (mapping, _) := next_field l in
  match codepoint with
  | None => Undef
  | Some c =>
      let* (lo, hi) := scan_range c in
      match flag with
      | None => Undef
      | Some f =>
          let* st := scan_status f in
          let* m := match mapping with
                    | None | Some [] => Ok []
                    | Some m =>
                        let* m := scan_mapping (S (length m)) m in
                        match m with [] => Fail BAD_DATA | _ => Ok m end
                    end in
          Ok (Some (Row lo hi st m))
      end
  end.

(** gentr46map.c:358-405 [read_NFCQC]. *)
Definition scan_nfcqc (l : list Z) : out (option qrow) :=
  let (codepoint, l) := next_field l in
  let (type, l) := next_field l in
  let (check, _) := next_field l in
  match type with
  | None => Ok None
  | Some ty =>
      if negb (same ty (text "NFC_QC")) then Ok None
      else
        match codepoint with
        | None => Undef
        | Some c =>
            let* (lo, hi) := scan_range c in
            match check with
            | None => Undef
            | Some k =>
                match k with
                | 78 :: _ => Ok (Some (Qrow lo hi QcNo))
                | 77 :: _ => Ok (Some (Qrow lo hi QcMaybe))
                | _ => Fail BAD_DATA
                end
            end
        end
  end.

(** gentr46map.c:625-686 [main], from the two texts to the tables. *)
Definition gentr46map_text (idna props : list Z) : out tr46_tables :=
  let* rows := scan_file scan_idna idna in
  let* qrows := scan_file scan_nfcqc props in
  match gentr46map rows qrows with
  | Some T => Ok T
  | None => Fail BAD_DATA
  end.

(** * lib/gendata.c *)

(** strtok (s, d) for one delimiter byte [d], or none: the token, what precedes it
    (delimiters only), and the rest behind the byte that ends it. *)
Fixpoint token (d : option Z) (s : list Z) : list Z * list Z :=
  match s with
  | [] => ([], [])
  | c :: r => if match d with Some d => c =? d | None => false end then ([], r)
              else let (a, b) := token d r in (c :: a, b)
  end.
Fixpoint skip_delim (d : option Z) (s : list Z) : list Z :=
  match s with
  | c :: r => if match d with Some d => c =? d | None => false end then skip_delim d r else s
  | [] => []
  end.
Definition strtok (d : option Z) (s : list Z) : option (list Z * list Z) :=
  match skip_delim d s with
  | [] => None
  | s' => Some (token d s')
  end.

(** The C compiler on 0x%s and on the name of the property. *)
Definition c_hex (s : list Z) : out Z :=
  match s with
  | c :: _ =>
      match hex_digit c with
      | None => Fail BAD_DATA
      | Some _ => match hex_digits s 0 with
                  | (v, []) => if 0xffffffff <? v then Fail BAD_DATA else Ok v
                  | _ => Fail BAD_DATA
                  end
      end
  | [] => Fail BAD_DATA
  end.
Definition c_prop (s : list Z) : out prop :=
  let s := chop_space (skip_space s) in
  if same s (text "PVALID") then Ok PVALID
  else if same s (text "CONTEXTJ") then Ok CONTEXTJ
  else if same s (text "CONTEXTO") then Ok CONTEXTO
  else if same s (text "DISALLOWED") then Ok DISALLOWED
  else if same s (text "UNASSIGNED") then Ok UNASSIGNED
  else Fail BAD_DATA.

(** gendata.c:73-89, one turn of the loop, and the initializer it prints as the
    compiler reads it.  [line] is the array: strtok writes its terminators into
    it, so that printing it stops at the first of them. *)
Definition gendata_line (line : list Z) : out (option idna_entry) :=
  match strtok (Some 44) line with
  | None => Fail BAD_DATA
  | Some (_, rest) =>
      match strtok (Some 44) rest with
      | None => Fail BAD_DATA
      | Some (property, _) =>
          if same property (text "UNASSIGNED") then Ok None
          else
            (* line as strtok has left it: up to the first terminator *)
            let lead := firstn (length line - length (skip_delim (Some 44) line)) line in
            let (tok, _) := token (Some 44) (skip_delim (Some 44) line) in
            let line := lead ++ tok in
            let (first, range_end) :=
              match strtok (Some 45) line with
              | None => (line, None)
              | Some (tok, rest) =>
                  (firstn (length line - length (skip_delim (Some 45) line)) line ++ tok,
                   match rest with [] => None | _ => Some rest end)
              end in
            let* lo := c_hex first in
            let* hi := c_hex (match range_end with Some e => e | None => first end) in
            let* p := c_prop property in
            Ok (Some (IdnaEntry lo hi p))
      end
  end.
Fixpoint gendata_lines (ls : list (list Z)) : out (list idna_entry) :=
  match ls with
  | [] => Ok []
  | l :: r =>
      let* x := gendata_line l in
      let* xs := gendata_lines r in
      Ok (match x with Some e => e :: xs | None => xs end)
  end.
(** strstr (line, "Codepoint,Property,") == line. *)
Fixpoint prefix (p s : list Z) : bool :=
  match p, s with
  | [], _ => true
  | a :: p', b :: s' => (a =? b) && prefix p' s'
  | _, [] => false
  end.
(** gendata.c:53-95 [main]. *)
Definition gendata_text (t : list Z) : out (list idna_entry) :=
  let* ls := buffers (length t) t in
  match ls with
  | h :: r => if prefix (text "Codepoint,Property,") h then gendata_lines r else Fail BAD_DATA
  | [] => Fail BAD_DATA
  end.
