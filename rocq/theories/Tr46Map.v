(** lib/tr46map.c: lookup in the packed tables.  The functions take the tables
    as an argument; [tr46_data] is what the library is linked with. *)
From Verif Require Import Base DataTypes Bsearch Tables Gentr46 Tr46Tables.

(** IDNAMap, tr46map.h:43-50. *)
Record idnamap := IdnaMap { m_cp1 : Z; m_range : Z; m_n : Z; m_off : Z; m_idx : Z }.

(** tr46map.c:63-69: the last three bytes of a record. *)
Definition fill_value (cp1 range : Z) (p : list Z) : out idnamap :=
  match p with
  | b0 :: b1 :: b2 :: _ =>
      let value := Z.lor (Z.lor (Z.shiftl b0 16) (Z.shiftl b1 8)) b2 in
      Ok (IdnaMap cp1 range (Z.land (Z.shiftr value 17) 0x1f)
            (Z.land (Z.shiftr value 3) 0x3fff) (Z.land value 7))
  | _ => Undef
  end.

(** tr46map.c:40-70 [_fill_map]; [p] is the table from the record on. *)
Definition fill_map (c : Z) (p : list Z) : out idnamap :=
  if c <=? 0xff then
    match p with
    | p0 :: p1 :: r => fill_value p0 p1 r
    | _ => Undef
    end
  else if c <=? 0xffff then
    match p with
    | p0 :: p1 :: p2 :: p3 :: r =>
        fill_value (Z.lor (Z.shiftl p0 8) p1) (Z.lor (Z.shiftl p2 8) p3) r
    | _ => Undef
    end
  else
    match p with
    | p0 :: p1 :: p2 :: p3 :: p4 :: r =>
        fill_value (Z.lor (Z.lor (Z.shiftl p0 16) (Z.shiftl p1 8)) p2) (Z.lor (Z.shiftl p3 8) p4) r
    | _ => Undef
    end.

(** tr46map.c:72-84 [_compare_idna_map]. *)
Definition compare_idna_map (c : Z) (p : list Z) : out Z :=
  let* m := fill_map c p in
  if c <? m_cp1 m then Ok (-1)
  else if m_cp1 m + m_range m <? c then Ok 1
  else Ok 0.

Definition ptr (tbl : list Z) (size i : Z) : list Z := skipn (Z.to_nat (i * size)) tbl.

(** tr46map.c:104-135 [get_idna_map].  The second component is the return
    value (0 or -1); on -1 the map is zeroed. *)
Definition search_map (c : Z) (tbl : list Z) (size : Z) : out (idnamap * Z) :=
  let* r := bsearch (fun i => compare_idna_map c (ptr tbl size i)) (zlen tbl / size) in
  match r with
  | None => Ok (IdnaMap 0 0 0 0 0, -1)
  | Some i => let* m := fill_map c (ptr tbl size i) in Ok (m, 0)
  end.
Definition get_idna_map_in (T : tr46_tables) (c : Z) : out (idnamap * Z) :=
  if c <=? 0xff then search_map c (t_map8 T) 5
  else if c <=? 0xffff then search_map c (t_map16 T) 7
  else if c <=? 0xffffff then search_map c (t_map24 T) 8
  else Ok (IdnaMap 0 0 0 0 0, -1).

(** tr46map.c:137-141 [map_is]. *)
Definition map_is_in (T : tr46_tables) (m : idnamap) (flags : Z) : out bool :=
  let* f := rd (t_flags T) (m_idx m) in
  Ok (Z.land f flags =? flags).

(** tr46map.c:171-174: read one code point from the stream. *)
Fixpoint stream_cp (s : list Z) (cp : Z) : out (Z * list Z) :=
  match s with
  | [] => Undef
  | b :: r =>
      let cp' := u32 (Z.lor (u32 (Z.shiftl cp 7)) (Z.land b 0x7f)) in
      if Z.land b 0x80 =? 0 then Ok (cp', r) else stream_cp r cp'
  end.
(** tr46map.c:169-176. *)
Fixpoint stream_cps (n : nat) (s : list Z) : out (list Z) :=
  match n with
  | O => Ok []
  | S n' =>
      let* (cp, r) := stream_cp s 0 in
      let* l := stream_cps n' r in
      Ok (cp :: l)
  end.
(** tr46map.c:162-179 [get_map_data]: the code points written to dst. *)
Definition get_map_data_in (T : tr46_tables) (m : idnamap) : out (list Z) :=
  if zlen (t_mapdata T) <? m_off m then Undef
  else stream_cps (Z.to_nat (m_n m)) (skipn (Z.to_nat (m_off m)) (t_mapdata T)).

(** tr46map.c:143-151 [_compare_nfcqc_map]. *)
Definition compare_nfcqc (c : Z) (q : nfcqc) : Z :=
  if c <? nq1 q then -1 else if nq2 q <? c then 1 else 0.
(** tr46map.c:153-160 [get_nfcqc_map]; [None] is NULL. *)
Definition get_nfcqc_in (T : tr46_tables) (c : Z) : out (option nfcqc) :=
  let* r := bsearch (fun i => let* q := elem (t_nfcqc T) i in Ok (compare_nfcqc c q)) (zlen (t_nfcqc T)) in
  match r with
  | None => Ok None
  | Some i => let* q := elem (t_nfcqc T) i in Ok (Some q)
  end.

(** The library's instances. *)
Definition get_idna_map (c : Z) := get_idna_map_in tr46_data c.
Definition map_is (m : idnamap) (flags : Z) := map_is_in tr46_data m flags.
Definition get_map_data (m : idnamap) := get_map_data_in tr46_data m.
Definition get_nfcqc_map (c : Z) := get_nfcqc_in tr46_data c.
