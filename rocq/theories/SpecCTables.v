(** What C11 says about bsearch, and what it means that the text of the table lookups
    returns. *)
From Coq Require Import String.
From Verif Require Import Base DataTypes Tables Gentr46 Tr46Tables CLang CTables SpecCPuny.
Local Open Scope string_scope.
Local Open Scope list_scope.
Local Open Scope Z_scope.

(** C11 7.22.5.1: the array consists of the elements less than the key (the comparison
    of the key with them is positive), those equal to it, and those greater, in that
    order. *)
Definition partitioned (g : Z -> Z) (n : Z) : Prop :=
  exists a b, 0 <= a <= b /\ b <= n /\ (forall i, 0 <= i < a -> 0 < g i) /\ (forall i, a <= i < b -> g i = 0) /\ (forall i, b <= i < n -> g i < 0).
(** If so, and if the comparisons are defined, it returns a matching element, any one, or
    NULL if there is none.  Otherwise it may do anything. *)
Definition c11_bsearch (bs : bsearch_fun) : Prop :=
  forall cmp g n, 0 <= n -> (forall i, 0 <= i < n -> cmp i = Val (g i)) -> partitioned g n ->
  (exists i, 0 <= i < n /\ g i = 0 /\ bs cmp n = Val i) \/ ((forall i, 0 <= i < n -> g i <> 0) /\ bs cmp n = Val (-1)).

(** The function [f] ends, with no undefined behaviour, returns [v] and leaves the
    memory [mem'] behind. *)
Definition t_returns (bs : bsearch_fun) (size : Z) (f : cfun) (args : list (cty * Z)) (mem : list (string * carr)) (v : Z) (mem' : list (string * carr)) : Prop :=
  returns (fun n => run (table_program bs size) f 1 n args mem) (v, mem').

(** The functions with the library's own arrays, which they leave as they are.
    property, and _idn2_disallowed_p, _idn2_contextj_p, .. *)
Definition returns_property (bs : bsearch_fun) (c v : Z) : Prop :=
  t_returns bs (zlen idna_table) (c_property (zlen idna_table)) [(U32, c)] (idna_arrays idna_table) v (idna_arrays idna_table).
Definition returns_class (bs : bsearch_fun) (p : prop) (c v : Z) : Prop :=
  t_returns bs (zlen idna_table) (c_is p) [(U32, c)] (idna_arrays idna_table) v (idna_arrays idna_table).
(** get_idna_map, with the members of *map before and after; [None] is not initialised. *)
Record members_of := Members { v_cp1 : option Z; v_range : option Z; v_n : option Z; v_off : option Z; v_idx : option Z }.
Definition tr46_mem (m : members_of) : list (string * carr) :=
  [byte_array "idna_map_8" (t_map8 tr46_data); byte_array "idna_map_16" (t_map16 tr46_data); byte_array "idna_map_24" (t_map24 tr46_data)]
  ++ map_arrays (v_cp1 m) (v_range m) (v_n m) (v_off m) (v_idx m).
Definition returns_map (bs : bsearch_fun) (c : Z) (before : members_of) (rc : Z) (after : members_of) : Prop :=
  t_returns bs (zlen idna_table) (c_get_idna_map (zlen (t_map8 tr46_data)) (zlen (t_map16 tr46_data)) (zlen (t_map24 tr46_data))) [(U32, c)] (tr46_mem before) rc (tr46_mem after).
(** map_is *)
Definition flag_mem (m : members_of) : list (string * carr) := [("map->flag_index", (I32, [v_idx m])); ("idna_flags", (U32, map Some (t_flags tr46_data)))].
Definition returns_flag (bs : bsearch_fun) (m : members_of) (flags v : Z) : Prop :=
  t_returns bs (zlen idna_table) c_map_is [(U32, flags)] (flag_mem m) v (flag_mem m).
(** get_map_data, with the array at dst before and after *)
Definition data_mem (m : members_of) (dst : list (option Z)) : list (string * carr) :=
  [("dst", (U32, dst)); ("map->nmappings", (I32, [v_n m])); ("map->offset", (I32, [v_off m])); byte_array "mapdata" (t_mapdata tr46_data)].
Definition returns_data (bs : bsearch_fun) (m : members_of) (dst : list (option Z)) (v : Z) (dst' : list (option Z)) : Prop :=
  t_returns bs (zlen idna_table) c_get_map_data [] (data_mem m dst) v (data_mem m dst').
(** get_nfcqc_map: the index of the element, -1 for NULL *)
Definition returns_nfcqc (bs : bsearch_fun) (ch : cty) (c v : Z) : Prop :=
  t_returns bs (zlen idna_table) (c_get_nfcqc_map (zlen (t_nfcqc tr46_data))) [(U32, c)] (nfcqc_arrays ch (t_nfcqc tr46_data)) v (nfcqc_arrays ch (t_nfcqc tr46_data)).
