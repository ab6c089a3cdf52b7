(** What a C compiler makes of a file that declares constant arrays: tokens
    (C11 6.4), integer constants (6.4.4.1) and initializers (6.7.9), as far as
    tables of numbers need them.  Computable: a text has one meaning or none. *)
From Coq Require Import String Ascii.
From Verif Require Import Base DataTypes Tables Gentr46 SpecScan.
Local Open Scope list_scope.
Local Open Scope Z_scope.

Inductive ctoken := CWord (w : list Z) | CPunct (c : Z) | CDirective (d : list Z).

Definition is_white (c : Z) : bool := (c =? 32) || ((9 <=? c) && (c <=? 13)).
Definition is_word (c : Z) : bool :=
  ((48 <=? c) && (c <=? 57)) || ((65 <=? c) && (c <=? 90)) || ((97 <=? c) && (c <=? 122)) || (c =? 95).
Definition is_punct (c : Z) : bool := existsb (Z.eqb c) (bytes_of "{}[]=,;").

(** Where we are: between tokens, in an identifier or number (read so far, last
    byte first), in a line that began with #, behind a slash, in a comment,
    behind a star in a comment. *)
Inductive where_ := Plain | InWord (w : list Z) | InDirective (d : list Z) | Slash | Comment | Star.
Definition then_ (t : ctoken) (r : option (list ctoken)) : option (list ctoken) :=
  match r with Some l => Some (t :: l) | None => None end.
Fixpoint tokens (m : where_) (s : list Z) : option (list ctoken) :=
  match s with
  | [] => match m with Plain => Some [] | InWord w => Some [CWord (rev w)] | _ => None end
  | c :: r =>
      let start :=
        if is_white c then tokens Plain r
        else if is_word c then tokens (InWord [c]) r
        else if c =? 35 then tokens (InDirective []) r
        else if c =? 47 then tokens Slash r
        else if is_punct c then then_ (CPunct c) (tokens Plain r)
        else None in
      match m with
      | Plain => start
      | InWord w => if is_word c then tokens (InWord (c :: w)) r else then_ (CWord (rev w)) start
      | InDirective d => if c =? 10 then then_ (CDirective (rev d)) (tokens Plain r) else tokens (InDirective (c :: d)) r
      | Slash => if c =? 42 then tokens Comment r else None
      | Comment => tokens (if c =? 42 then Star else Comment) r
      | Star => if c =? 47 then tokens Plain r else tokens (if c =? 42 then Star else Comment) r
      end
  end.

(** Integer constants: hexadecimal, octal, decimal. *)
Definition digit_value (c : Z) : Z :=
  if (48 <=? c) && (c <=? 57) then c - 48
  else if (65 <=? c) && (c <=? 70) then c - 55
  else if (97 <=? c) && (c <=? 102) then c - 87
  else 99.
Fixpoint value (base : Z) (s : list Z) (v : Z) : option Z :=
  match s with
  | [] => Some v
  | c :: r => if digit_value c <? base then value base r (base * v + digit_value c) else None
  end.
Definition constant (s : list Z) : option Z :=
  match s with
  | [] => None
  | c :: r =>
      if c =? 48 then
        match r with
        | [] => Some 0
        | x :: r' =>
            if (x =? 120) || (x =? 88) then match r' with [] => None | _ => value 16 r' 0 end
            else value 8 r 0
        end
      else value 10 s 0
  end.
(** A constant below [n], as the value of a member that can hold it. *)
Definition below (n : Z) (s : list Z) : option Z :=
  match constant s with
  | Some v => if v <? n then Some v else None
  | None => None
  end.

Definition open : ctoken := CPunct 123.
Definition close : ctoken := CPunct 125.
Definition comma : ctoken := CPunct 44.

(** Lists of numbers up to the closing brace; the last comma may be missing. *)
Fixpoint numbers (n : Z) (ts : list ctoken) : option (list Z * list ctoken) :=
  match ts with
  | CPunct c :: r => if c =? 125 then Some ([], r) else None
  | CWord w :: CPunct c :: r =>
      match below n w with
      | None => None
      | Some v =>
          if c =? 125 then Some ([v], r)
          else if c =? 44 then
            match numbers n r with Some (vs, r') => Some (v :: vs, r') | None => None end
          else None
      end
  | _ => None
  end.
(** Lists of structures of three members each. *)
Fixpoint triples {A} (member : list Z -> list Z -> list Z -> option A) (ts : list ctoken) : option (list A * list ctoken) :=
  match ts with
  | CPunct c :: CWord a :: CPunct c1 :: CWord b :: CPunct c2 :: CWord d :: CPunct c3 :: CPunct c4 :: r =>
      if (c =? 123) && (c1 =? 44) && (c2 =? 44) && (c3 =? 125) then
        match member a b d with
        | None => None
        | Some x =>
            if c4 =? 125 then Some ([x], r)
            else if c4 =? 44 then
              match triples member r with Some (xs, r') => Some (x :: xs, r') | None => None end
            else None
        end
      else None
  | CPunct c :: r => if c =? 125 then Some ([], r) else None
  | _ => None
  end.

Fixpoint eqb_bytes (a b : list Z) : bool :=
  match a, b with
  | [], [] => true
  | x :: a', y :: b' => (x =? y) && eqb_bytes a' b'
  | _, _ => false
  end.
Definition eqb_token (a b : ctoken) : bool :=
  match a, b with
  | CWord x, CWord y => eqb_bytes x y
  | CPunct x, CPunct y => x =? y
  | CDirective x, CDirective y => eqb_bytes x y
  | _, _ => false
  end.
(** The tokens behind those of [want]. *)
Fixpoint after (want : list ctoken) (ts : list ctoken) : option (list ctoken) :=
  match want, ts with
  | [], _ => Some ts
  | w :: want', t :: ts' => if eqb_token w t then after want' ts' else None
  | _, [] => None
  end.
Definition words (s : string) : list ctoken :=
  match tokens Plain (bytes_of s) with Some l => l | None => [] end.

(** [decl [size] = { ... };] with as many elements as [size] says. *)
Definition array {A} (decl : string) (elements : list ctoken -> option (list A * list ctoken)) (ts : list ctoken)
  : option (list A * list ctoken) :=
  match after (words decl ++ [CPunct 91]) ts with
  | Some (CWord w :: ts) =>
      match constant w, after (words "] = {") ts with
      | Some n, Some ts =>
          match elements ts with
          | Some (vs, ts) =>
              if n =? zlen vs then match after (words ";") ts with Some ts => Some (vs, ts) | None => None end else None
          | None => None
          end
      | _, _ => None
      end
  | _ => None
  end.

(** uint8_t; NFCQCMap { uint32_t cp1, cp2; char check; } (a char holds 0 to 127 whatever its sign). *)
Definition u8s : list ctoken -> option (list Z * list ctoken) := numbers 256.
Definition nfcqc_of (a b c : list Z) : option nfcqc :=
  match below (2 ^ 32) a, below (2 ^ 32) b, below 128 c with
  | Some x, Some y, Some z => Some (NfcQc x y z)
  | _, _, _ => None
  end.
(** struct idna_table { uint32_t start, end; int state; } with the names of the
    enumeration in data.h. *)
Definition state_of (s : list Z) : option prop :=
  find (fun p => eqb_bytes (bytes_of (prop_name p)) s) [PVALID; CONTEXTJ; CONTEXTO; DISALLOWED; UNASSIGNED].
Definition idna_of (a b c : list Z) : option idna_entry :=
  match below (2 ^ 32) a, below (2 ^ 32) b, state_of c with
  | Some x, Some y, Some p => Some (IdnaEntry x y p)
  | _, _, _ => None
  end.

Definition quoted (s : string) : list Z := [34] ++ bytes_of s ++ [34].

(** tr46map_data.c, which tr46map.c includes. *)
Definition tr46map_data_c (s : list Z) : option tr46_tables :=
  match tokens Plain s with
  | None => None
  | Some ts =>
  match after [CDirective (bytes_of "include <stdint.h>"); CDirective (bytes_of "include " ++ quoted "tr46map.h")] ts with
  | None => None
  | Some ts =>
  match array "static const uint8_t idna_flags" u8s ts with
  | None => None
  | Some (flags, ts) =>
  match array "static const uint8_t idna_map_8" u8s ts with
  | None => None
  | Some (map8, ts) =>
  match array "static const uint8_t idna_map_16" u8s ts with
  | None => None
  | Some (map16, ts) =>
  match array "static const uint8_t idna_map_24" u8s ts with
  | None => None
  | Some (map24, ts) =>
  match array "static const uint8_t mapdata" u8s ts with
  | None => None
  | Some (mapdata, ts) =>
  match array "static const NFCQCMap nfcqc_map" (triples nfcqc_of) ts with
  | Some (nfcqc, []) => Some (Tr46Tables flags map8 map16 map24 mapdata nfcqc)
  | _ => None
  end end end end end end end end.

(** data.c: the table and the number of its entries. *)
Definition data_c (s : list Z) : option (list idna_entry * Z) :=
  match tokens Plain s with
  | None => None
  | Some ts =>
  match after ([CDirective (bytes_of "include <config.h>"); CDirective (bytes_of "include " ++ quoted "data.h")] ++
               words "const struct idna_table idna_table[] = {") ts with
  | None => None
  | Some ts =>
  match triples idna_of ts with
  | None => None
  | Some (table, ts) =>
  match after (words "; const size_t idna_table_size =") ts with
  | Some [CWord w; CPunct 59] => match constant w with Some n => Some (table, n) | None => None end
  | _ => None
  end end end end.
