(** lib/gentr46map.c: the program that turns IdnaMappingTable.txt and
    DerivedNormalizationProps.txt into the packed tables of tr46map_data.c.
    Text scanning (_nextField, _scan_file, sscanf) is in Scan.v; here the input is
    the list of rows.  The output is the contents of the generated arrays rather
    than their C text, which is in GenText.v.  Any diagnostic the program prints goes to stdout, i.e.
    into the generated C file, so it is modelled as failure ([None]), as are its
    exits and writes beyond its static arrays. *)
From Verif Require Import Base DataTypes.

(** tr46map.h:35-41. *)
Definition FLG_VALID := 1.
Definition FLG_MAPPED := 2.
Definition FLG_IGNORED := 4.
Definition FLG_DEVIATION := 8.
Definition FLG_DISALLOWED := 16.
Definition FLG_DISALLOWED_STD3_MAPPED := 32.
Definition FLG_DISALLOWED_STD3_VALID := 64.

(** gentr46map.c:266-279. *)
Definition flag_of (s : status) : Z :=
  match s with
  | Valid => FLG_VALID
  | Mapped => FLG_MAPPED
  | Disallowed => FLG_DISALLOWED
  | Ignored => FLG_IGNORED
  | Deviation => FLG_DEVIATION
  | Std3Mapped => FLG_DISALLOWED_STD3_MAPPED
  | Std3Valid => FLG_DISALLOWED_STD3_VALID
  end.

(** IDNAMap_gen, gentr46map.c:46-53. *)
Record gmap := GMap { g1 : Z; g2 : Z; gn : Z; goff : Z; gidx : Z; gflags : Z }.

(** gentr46map.c:164-213 [_u32_to_stream] for one code point. *)
Definition cp_stream (cp : Z) : list Z :=
  if cp <=? 0x7f then [Z.land cp 0x7f]
  else if cp <=? 0x3fff then
    [Z.lor 0x80 (Z.land (Z.shiftr cp 7) 0x7f); Z.land cp 0x7f]
  else if cp <=? 0x1fffff then
    [Z.lor 0x80 (Z.land (Z.shiftr cp 14) 0x7f); Z.lor 0x80 (Z.land (Z.shiftr cp 7) 0x7f); Z.land cp 0x7f]
  else if cp <=? 0xfffffff then
    [Z.lor 0x80 (Z.land (Z.shiftr cp 21) 0x7f); Z.lor 0x80 (Z.land (Z.shiftr cp 14) 0x7f);
     Z.lor 0x80 (Z.land (Z.shiftr cp 7) 0x7f); Z.land cp 0x7f]
  else
    [Z.lor 0x80 (Z.land (Z.shiftr cp 28) 0x7f); Z.lor 0x80 (Z.land (Z.shiftr cp 21) 0x7f);
     Z.lor 0x80 (Z.land (Z.shiftr cp 14) 0x7f); Z.lor 0x80 (Z.land (Z.shiftr cp 7) 0x7f); Z.land cp 0x7f].

(** gentr46map.c:58, 64, 55: sizes of the static arrays; 288: of tmp. *)
Definition MAPDATA_SIZE := 16384.
Definition IDNA_MAP_SIZE := 10000.
Definition NFCQC_SIZE := 140.
Definition TMP_SIZE := 20.

(** gentr46map.c:286-310: append the mapping's code points to genmapdata.
    [pos] is mapdata_pos; [acc] the bytes written, last first.  Returns the new
    [pos], [acc] and map->nmappings. *)
Fixpoint add_mapping (m : list Z) (n pos : Z) (acc : list Z) : option (Z * list Z * Z) :=
  match m with
  | [] => Some (pos, acc, n)
  | cp :: m' =>
      if MAPDATA_SIZE <=? pos then None
      else if TMP_SIZE <=? n then None
      else
        let s := cp_stream cp in
        if MAPDATA_SIZE <? pos + zlen s then None
        else add_mapping m' (n + 1) (pos + zlen s) (rev_append s acc)
  end.

(** gentr46map.c:233-346 [read_IdnaMappings] over all rows.  [maps] holds the
    entries so far, last first; [cnt] is map_pos. *)
Definition read_row (r : row) (maps : list gmap) (cnt pos : Z) (acc : list Z)
  : option (list gmap * Z * Z * list Z) :=
  if r_hi r <? r_lo r then None
  else if match maps with p :: _ => r_lo r <=? g2 p | [] => false end then None
  else
    let fl := flag_of (r_status r) in
    match add_mapping (r_map r) 0 pos acc with
    | None => None
    | Some (pos', acc', n) =>
        if (n =? 0)
           && negb (Z.land fl (Z.lor FLG_MAPPED (Z.lor FLG_DISALLOWED_STD3_MAPPED FLG_DEVIATION)) =? 0)
           && negb (r_lo r =? 0x200C) && negb (r_lo r =? 0x200D)
        then None
        else
          let off := if n =? 0 then 0 else pos mod MAPDATA_SIZE in
          let e := GMap (r_lo r) (r_hi r) n off 0 fl in
          match maps with
          | p :: ps =>
              if (n =? 0) && (g2 p + 1 =? r_lo r) && (gn p =? 0) && (gflags p =? fl)
              then Some (GMap (g1 p) (r_hi r) (gn p) (goff p) (gidx p) (gflags p) :: ps, cnt, pos', acc')
              else if IDNA_MAP_SIZE <=? cnt + 1 then None
              else Some (e :: maps, cnt + 1, pos', acc')
          | [] => Some ([e], cnt + 1, pos', acc')
          end
    end.

Fixpoint read_rows (rs : list row) (maps : list gmap) (cnt pos : Z) (acc : list Z)
  : option (list gmap * list Z) :=
  match rs with
  | [] => Some (rev_append maps [], rev_append acc [])
  | r :: rs' =>
      match read_row r maps cnt pos acc with
      | Some (maps', cnt', pos', acc') => read_rows rs' maps' cnt' pos' acc'
      | None => None
      end
  end.

(** qsort (C library, trusted): the result is the input sorted by the given
    comparison; modelled as a stable merge sort (a stack of sorted runs whose
    sizes are the binary digits of the number of elements seen).  [le a b] is
    [cmp a b <= 0]. *)
Section Sort.
  Context {A : Type} (le : A -> A -> bool).
  Fixpoint merge (l1 : list A) : list A -> list A :=
    fix merge_aux (l2 : list A) : list A :=
      match l1, l2 with
      | [], _ => l2
      | _, [] => l1
      | a1 :: r1, a2 :: r2 => if le a1 a2 then a1 :: merge r1 l2 else a2 :: merge_aux r2
      end.
  Fixpoint push_run (stack : list (option (list A))) (l : list A) : list (option (list A)) :=
    match stack with
    | [] => [Some l]
    | None :: st => Some l :: st
    | Some l' :: st => None :: push_run st (merge l' l)
    end.
  Fixpoint merge_stack (stack : list (option (list A))) : list A :=
    match stack with
    | [] => []
    | None :: st => merge_stack st
    | Some l :: st => merge (merge_stack st) l
    end.
  Fixpoint sort_runs (stack : list (option (list A))) (l : list A) : list A :=
    match l with
    | [] => merge_stack stack
    | a :: r => sort_runs (push_run stack [a]) r
    end.
  Definition qsort (l : list A) : list A := sort_runs [] l.
End Sort.

(** gentr46map.c:407-417 [_compare_map_by_maplen], as "<= 0". *)
Definition by_maplen (a b : gmap) : bool :=
  if gn a =? gn b then g1 a <=? g2 b else gn b <? gn a.

(** gentr46map.c:348-356 [_compare_map], as "<= 0". *)
Definition by_cp (a b : gmap) : bool := (g1 a <? g1 b) || (g1 a <=? g2 b).

(** gentr46map.c:455-467 [_u32_cp_stream_len]: the first [ncp] code points of
    the stream, as the prefix of bytes they occupy. *)
Fixpoint cp_stream_prefix (fuel : nat) (s : list Z) (ncp : Z) : list Z :=
  match fuel, s with
  | S fuel, b :: r =>
      if ncp =? 0 then []
      else b :: cp_stream_prefix fuel r (if Z.land b 0x80 =? 0 then ncp - 1 else ncp)
  | _, _ => []
  end.

Fixpoint prefix_eq (needle hay : list Z) : bool :=
  match needle, hay with
  | [], _ => true
  | a :: n, b :: h => if a =? b then prefix_eq n h else false
  | _ :: _, [] => false
  end.

(** gentr46map.c:438-453 [_u8_memmem]: the suffix of [hay] at the first
    occurrence of [needle]. *)
Fixpoint u8_memmem (hay needle : list Z) : option (list Z) :=
  if prefix_eq needle hay then Some hay
  else match hay with
       | [] => None
       | _ :: h => u8_memmem h needle
       end.

(** gentr46map.c:489-507: loop of [_compact_idna_map]. *)
Fixpoint compact_loop (gen : list Z) (maps : list gmap) (data : list Z) : list gmap * list Z :=
  match maps with
  | [] => ([], data)
  | m :: ms =>
      if gn m =? 0 then
        let (ms', data') := compact_loop gen ms data in (m :: ms', data')
      else
        let src := skipn (Z.to_nat (goff m)) gen in
        let needle := cp_stream_prefix 200 src (gn m) in
        match u8_memmem data needle with
        | Some q =>
            let p := zlen data - zlen q in
            let (ms', data') := compact_loop gen ms data in
            (GMap (g1 m) (g2 m) (gn m) (p mod MAPDATA_SIZE) (gidx m) (gflags m) :: ms', data')
        | None =>
            let (ms', data') := compact_loop gen ms (data ++ needle) in
            (GMap (g1 m) (g2 m) (gn m) (zlen data mod MAPDATA_SIZE) (gidx m) (gflags m) :: ms', data')
        end
  end.

(** gentr46map.c:474-516 [_compact_idna_map]. *)
Definition compact (maps : list gmap) (gen : list Z) : list gmap * list Z :=
  let (ms, data) := compact_loop gen (qsort by_maplen maps) [] in
  (qsort by_cp ms, data).

Fixpoint index_of (x : Z) (l : list Z) (i : Z) : option Z :=
  match l with
  | [] => None
  | y :: r => if y =? x then Some i else index_of x r (i + 1)
  end.

(** gentr46map.c:518-549 [_combine_idna_flags]. *)
Fixpoint combine_flags (maps : list gmap) (combos : list Z) : option (list gmap * list Z) :=
  match maps with
  | [] => Some ([], combos)
  | m :: ms =>
      let set i := GMap (g1 m) (g2 m) (gn m) (goff m) i (gflags m) in
      match index_of (gflags m) combos 0 with
      | Some i =>
          match combine_flags ms combos with
          | Some (ms', c') => Some (set i :: ms', c')
          | None => None
          end
      | None =>
          if 8 <=? zlen combos then None
          else match combine_flags ms (combos ++ [gflags m]) with
               | Some (ms', c') => Some (set (zlen combos) :: ms', c')
               | None => None
               end
      end
  end.

Definition byte (x n : Z) : Z := Z.land (Z.shiftr x n) 0xff.

(** gentr46map.c:595-611: one printed record. *)
Definition print_entry (max : Z) (m : gmap) (cp1 cp2 : Z) : list Z :=
  let range := cp2 - cp1 in
  let value := Z.lor (Z.shiftl (Z.lor (Z.shiftl (gn m) 14) (goff m)) 3) (gidx m) in
  (if max =? 0xff then [byte cp1 0; byte range 0]
   else if max =? 0xffff then [byte cp1 8; byte cp1 0; byte range 8; byte range 0]
   else [byte cp1 16; byte cp1 8; byte cp1 0; byte range 8; byte range 0])
  ++ [byte value 16; byte value 8; byte value 0].

(** gentr46map.c:583-612: a range wider than 0x10000 is split; [n] counts the
    chunks still to come after this one. *)
Fixpoint print_chunks (n : nat) (max : Z) (m : gmap) (cp1 : Z) : list Z :=
  match n with
  | O => print_entry max m cp1 (g2 m)
  | S n' => print_entry max m cp1 (cp1 + 0xffff) ++ print_chunks n' max m (cp1 + 0xffff + 1)
  end.

(** gentr46map.c:563-623 [_print_tr46_map]. *)
Fixpoint print_map (min max : Z) (maps : list gmap) : list Z :=
  match maps with
  | [] => []
  | m :: ms =>
      if g1 m <? min then print_map min max ms
      else if max <? g1 m then []
      else print_chunks (Z.to_nat ((g2 m - g1 m) / 0x10000)) max m (g1 m) ++ print_map min max ms
  end.

(** NFCQCMap, tr46map.h:52-56; check as stored by read_NFCQC (388-391). *)
Record nfcqc := NfcQc { nq1 : Z; nq2 : Z; nq_check : Z }.
Definition check_of (q : qc) : Z := match q with QcNo => 1 | QcMaybe => 2 end.

(** gentr46map.c:358-405 [read_NFCQC]. *)
Fixpoint read_nfcqc (rs : list qrow) (cnt : Z) : option (list nfcqc) :=
  match rs with
  | [] => Some []
  | r :: rs' =>
      if q_hi r <? q_lo r then None
      else if NFCQC_SIZE <=? cnt + 1 then None
      else match read_nfcqc rs' (cnt + 1) with
           | Some l => Some (NfcQc (q_lo r) (q_hi r) (check_of (q_qc r)) :: l)
           | None => None
           end
  end.
Definition nq_by_cp (a b : nfcqc) : bool := (nq1 a <? nq1 b) || (nq1 a <=? nq2 b).

(** The arrays of tr46map_data.c (gentr46map.c:648-683). *)
Record tr46_tables := Tr46Tables {
  t_flags : list Z; t_map8 : list Z; t_map16 : list Z; t_map24 : list Z;
  t_mapdata : list Z; t_nfcqc : list nfcqc }.

(** gentr46map.c:625-686 [main]. *)
Definition gentr46map (rows : list row) (qrows : list qrow) : option tr46_tables :=
  match read_rows rows [] 0 0 [] with
  | None => None
  | Some (maps, gen) =>
      let (maps, data) := compact maps gen in
      match combine_flags maps [] with
      | None => None
      | Some (maps, combos) =>
          match read_nfcqc qrows 0 with
          | None => None
          | Some q =>
              Some (Tr46Tables combos (print_map 0 0xff maps) (print_map 0x100 0xffff maps)
                      (print_map 0x10000 0xffffff maps) data (qsort nq_by_cp q))
          end
      end
  end.
