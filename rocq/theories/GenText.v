(** The C source text which the generators lib/gentr46map.c and lib/gendata.c
    print, byte by byte.  What gentr46map.c computes is in Gentr46.v, how both
    read their files in Scan.v; here is what they write. *)
From Coq Require Import String Ascii.
From Verif Require Import Base DataTypes Gentr46 Tables Scan.
Local Open Scope list_scope.
Local Open Scope Z_scope.

(** printf's digits of a number, most significant first. *)
Definition digit_char (d : Z) : Z := if d <? 10 then 48 + d else 55 + d.
Fixpoint digits_aux (fuel : nat) (base x : Z) (acc : list Z) : list Z :=
  match fuel with
  | O => acc
  | S fuel' =>
      let acc := digit_char (x mod base) :: acc in
      if x <? base then acc else digits_aux fuel' base (x / base) acc
  end.
Definition digits (base x : Z) : list Z := digits_aux (S (Z.to_nat (Z.log2 x))) base x [].
(** %X; %d and %u (the arguments here are not negative); %02X. *)
Definition fmt_X (x : Z) : list Z := digits 16 x.
Definition fmt_d (x : Z) : list Z := digits 10 x.
Definition fmt_02X (x : Z) : list Z := if x <? 16 then 48 :: digits 16 x else digits 16 x.

Definition NL : list Z := [10].
(** "0x%X," *)
Definition pX (x : Z) : list Z := text "0x" ++ fmt_X x ++ text ",".

(** gentr46map.c:595-611: the text of one record. *)
Definition entry_text (max : Z) (m : gmap) (cp1 cp2 : Z) : list Z :=
  let range := cp2 - cp1 in
  let value := Z.lor (Z.shiftl (Z.lor (Z.shiftl (gn m) 14) (goff m)) 3) (gidx m) in
  (if max =? 0xff then pX (byte cp1 0) ++ pX (byte range 0)
   else if max =? 0xffff then pX (byte cp1 8) ++ pX (byte cp1 0) ++ pX (byte range 8) ++ pX (byte range 0)
   else pX (byte cp1 16) ++ pX (byte cp1 8) ++ pX (byte cp1 0) ++ pX (byte range 8) ++ pX (byte range 0))
  ++ pX (byte value 16) ++ pX (byte value 8) ++ pX (byte value 0) ++ NL.
(** gentr46map.c:583-612. *)
Fixpoint chunks_text (n : nat) (max : Z) (m : gmap) (cp1 : Z) : list Z :=
  match n with
  | O => entry_text max m cp1 (g2 m)
  | S n' => entry_text max m cp1 (cp1 + 0xffff) ++ chunks_text n' max m (cp1 + 0xffff + 1)
  end.
(** gentr46map.c:563-612 [_print_tr46_map] with do_print = 1. *)
Fixpoint map_text (min max : Z) (maps : list gmap) : list Z :=
  match maps with
  | [] => []
  | m :: ms =>
      if g1 m <? min then map_text min max ms
      else if max <? g1 m then []
      else chunks_text (Z.to_nat ((g2 m - g1 m) / 0x10000)) max m (g1 m) ++ map_text min max ms
  end.
(** The same with do_print = 0: [entries]. *)
Fixpoint map_entries (min max : Z) (maps : list gmap) (entries : Z) : Z :=
  match maps with
  | [] => entries
  | m :: ms =>
      if g1 m <? min then map_entries min max ms entries
      else if max <? g1 m then entries
      else map_entries min max ms (entries + Z.of_nat (S (Z.to_nat ((g2 m - g1 m) / 0x10000))))
  end.
(** gentr46map.c:614-622: the result, an int; overflow is undefined. *)
Definition map_size (min max : Z) (maps : list gmap) : option Z :=
  let entries := map_entries min max maps 0 in
  let n := if max =? 0xff then entries * 5
           else if max =? 0xffff then entries * 7
           else if max =? 0xffffff then entries * 8
           else 0 in
  if 0x7fffffff <? n then None else Some n.

(** gentr46map.c:647-650: the loop that prints flag_combination. *)
Definition flags_text (fl : list Z) : list Z := flat_map pX fl.
(** gentr46map.c:669-672: [it] is it mod 16. *)
Fixpoint mapdata_text (it : Z) (d : list Z) : list Z :=
  match d with
  | [] => []
  | b :: r => text "0x" ++ fmt_02X b ++ text "," ++ (if it =? 15 then NL else []) ++ mapdata_text ((it + 1) mod 16) r
  end.
(** gentr46map.c:676-680. *)
Definition nfcqc_text (l : list nfcqc) : list Z :=
  flat_map (fun q => text "{0x" ++ fmt_X (nq1 q) ++ text ",0x" ++ fmt_X (nq2 q) ++ text "," ++ fmt_d (nq_check q) ++ text "}," ++ NL) l.

(** gentr46map.c:642-683: everything main prints. *)
Definition Q : list Z := [34].
Definition tr46map_data (maps : list gmap) (data combos : list Z) (q : list nfcqc) : option (list Z) :=
  match map_size 0 0xff maps, map_size 0x100 0xffff maps, map_size 0x10000 0xffffff maps with
  | Some n8, Some n16, Some n24 =>
      Some (text "/* This file is automatically generated.  DO NOT EDIT! */" ++ NL ++ NL ++
            text "#include <stdint.h>" ++ NL ++
            text "#include " ++ Q ++ text "tr46map.h" ++ Q ++ NL ++ NL ++
            text "static const uint8_t idna_flags[" ++ fmt_d (zlen combos) ++ text "] =" ++ NL ++ text "{" ++
            flags_text combos ++ text "};" ++ NL ++ NL ++
            text "static const uint8_t idna_map_8[" ++ fmt_d n8 ++ text "] = {" ++ NL ++
            map_text 0 0xff maps ++ text "};" ++ NL ++ NL ++
            text "static const uint8_t idna_map_16[" ++ fmt_d n16 ++ text "] = {" ++ NL ++
            map_text 0x100 0xffff maps ++ text "};" ++ NL ++ NL ++
            text "static const uint8_t idna_map_24[" ++ fmt_d n24 ++ text "] = {" ++ NL ++
            map_text 0x10000 0xffffff maps ++ text "};" ++ NL ++ NL ++
            text "static const uint8_t mapdata[" ++ fmt_d (zlen data) ++ text "] = {" ++ NL ++
            mapdata_text 0 data ++ text "};" ++ NL ++ NL ++
            text "static const NFCQCMap nfcqc_map[" ++ fmt_d (zlen q) ++ text "] = {" ++ NL ++
            nfcqc_text q ++ text "};" ++ NL)
  | _, _, _ => None
  end.

(** gentr46map.c:625-686 [main]: as [gentr46map], with the text for a result. *)
Definition gentr46map_file (rows : list row) (qrows : list qrow) : option (list Z) :=
  match read_rows rows [] 0 0 [] with
  | None => None
  | Some (maps, gen) =>
      let (maps, data) := compact maps gen in
      match combine_flags maps [] with
      | None => None
      | Some (maps, combos) =>
          match read_nfcqc qrows 0 with
          | None => None
          | Some q => tr46map_data maps data combos (qsort nq_by_cp q)
          end
      end
  end.
(** From the two data files to tr46map_data.c. *)
Definition gentr46map_run (idna props : list Z) : out (list Z) :=
  let* rows := scan_file scan_idna idna in
  let* qrows := scan_file scan_nfcqc props in
  match gentr46map_file rows qrows with
  | Some s => Ok s
  | None => Fail BAD_DATA
  end.

(** gendata.c:73-86: line, range_end and property when they are printed (see
    [gendata_line] of Scan.v about the array line). *)
Definition gendata_fields (line : list Z) : out (option (list Z * list Z * list Z)) :=
  match strtok (Some 44) line with
  | None => Fail BAD_DATA
  | Some (_, rest) =>
      match strtok (Some 44) rest with
      | None => Fail BAD_DATA
      | Some (property, _) =>
          if same property (text "UNASSIGNED") then Ok None
          else
            let lead := firstn (length line - length (skip_delim (Some 44) line)) line in
            let (tok, _) := token (Some 44) (skip_delim (Some 44) line) in
            let line := lead ++ tok in
            let (first, range_end) :=
              match strtok (Some 45) line with
              | None => (line, None)
              | Some (tok, rest) =>
                  (firstn (length line - length (skip_delim (Some 45) line)) line ++ tok,
                   match rest with [] => None | _ => Some rest end)
              end in
            Ok (Some (first, match range_end with Some e => e | None => first end, property))
      end
  end.
(** gendata.c:73-90: the rows printed and idna_table_size. *)
Fixpoint gendata_rows (ls : list (list Z)) : out (list Z * Z) :=
  match ls with
  | [] => Ok ([], 0)
  | l :: r =>
      let* x := gendata_fields l in
      let* (t, n) := gendata_rows r in
      match x with
      | None => Ok (t, n)
      | Some (first, last, property) =>
          Ok (text "  {0x" ++ first ++ text ", 0x" ++ last ++ text ", " ++ property ++ text "}," ++ NL ++ t, n + 1)
      end
  end.
(** gendata.c:57-95 [main]: from the CSV file to data.c. *)
Definition gendata_run (t : list Z) : out (list Z) :=
  let* ls := buffers (length t) t in
  match ls with
  | h :: r =>
      if prefix (text "Codepoint,Property,") h then
        let* (rows, n) := gendata_rows r in
        Ok (text "/* This file is automatically generated.  DO NOT EDIT! */" ++ NL ++ NL ++
            text "#include <config.h>" ++ NL ++
            text "#include " ++ Q ++ text "data.h" ++ Q ++ NL ++ NL ++
            text "const struct idna_table idna_table[] = {" ++ NL ++ rows ++ text "};" ++ NL ++
            text "const size_t idna_table_size = " ++ fmt_d n ++ text ";" ++ NL)
      else Fail BAD_DATA
  | [] => Fail BAD_DATA
  end.
