(** C94: the C text of the table lookups, run by the rules of C11 with any bsearch that
    C11 allows. *)
From Coq Require Import String.
From Verif Require Import Base DataTypes Uenv Ucd Tables SpecTables SpecGen Gentr46 Tr46Tables CLang CTables SpecCPuny SpecCTables CSearch CTablesCases.
Local Open Scope string_scope.
Local Open Scope list_scope.
Local Open Scope Z_scope.

Theorem C94_property : forall bs c, c11_bsearch bs -> 0 <= c < two32 ->
  returns_property bs c (match csv_property c with PVALID => 0 | CONTEXTJ => 1 | CONTEXTO => 2 | DISALLOWED => 3 | UNASSIGNED => 4 end).
Proof. exact c_property_spec. Qed.
Print Assumptions C94_property.
Example C94_property_case : returns_property glibc_bsearch 0x61 0 /\ returns_property linear_bsearch 0x200d 1 /\ returns_property linear_bsearch 0xb7 2 /\
  returns_property glibc_bsearch 0x41 3 /\ returns_property glibc_bsearch 0x378 4 /\ returns_property glibc_bsearch 0xffffffff 4.
Proof. exact case_property. Qed.
Theorem C94_classes : forall bs p c, c11_bsearch bs -> 0 <= c < two32 -> exists v, returns_class bs p c v /\ (v = 0 \/ v = 1) /\ (v = 1 <-> csv_property c = p).
Proof. exact c_class_spec. Qed.
Print Assumptions C94_classes.
Example C94_classes_case : returns_class glibc_bsearch DISALLOWED 0x41 1 /\ returns_class glibc_bsearch DISALLOWED 0x61 0 /\ returns_class linear_bsearch CONTEXTJ 0x200c 1 /\
  returns_class linear_bsearch UNASSIGNED 0x10ffff 0 /\ returns_class linear_bsearch UNASSIGNED 0x110000 1.
Proof. exact case_class. Qed.

(** get_idna_map, then map_is and get_map_data on what it found. *)
Theorem C94_idna_map : forall bs c v, c11_bsearch bs -> 0 <= c <= 0x10ffff -> exists r m, idna_row c = Some r /\ returns_map bs c v 0 m /\
  (forall s, exists b, returns_flag bs m (tr46_flag s) b /\ (b = 0 \/ b = 1) /\ (b = 1 <-> r_status r = s)) /\
  (forall dst, zlen (r_map r) <= zlen dst -> returns_data bs m dst (zlen (r_map r)) (map Some (r_map r) ++ skipn (length (r_map r)) dst)).
Proof. exact c_map_spec. Qed.
Print Assumptions C94_idna_map.
Example C94_idna_map_case :
  (exists m, returns_map glibc_bsearch 0xdf garbage 0 m /\ returns_flag glibc_bsearch m 8 1 /\ returns_data glibc_bsearch m [None; None; Some 7] 2 [Some 0x73; Some 0x73; Some 7]) /\
  (exists m, returns_map linear_bsearch 0x4b garbage 0 m /\ returns_flag linear_bsearch m 2 1 /\ returns_data linear_bsearch m [None] 1 [Some 0x6b]) /\
  (exists m, returns_map linear_bsearch 0x1f130 garbage 0 m /\ returns_flag linear_bsearch m 2 1 /\ returns_data linear_bsearch m [None; None] 1 [Some 0x61; None]).
Proof. exact case_map. Qed.
Theorem C94_outside : forall bs c v, c11_bsearch bs -> 0x10ffff < c < two32 -> exists m, m = Members (Some 0) (Some 0) (Some 0) (Some 0) (Some 0) /\ returns_map bs c v (-1) m /\
  (forall s, exists b, returns_flag bs m (tr46_flag s) b /\ (b = 1 <-> s = Std3Valid)).
Proof. exact c_map_outside. Qed.
Print Assumptions C94_outside.
Theorem C94_nfcqc : forall bs ch c, c11_bsearch bs -> exists i, returns_nfcqc bs ch c i /\
  match nfc_qc c with None => i = -1 | Some k => exists q, 0 <= i /\ nth_error (t_nfcqc tr46_data) (Z.to_nat i) = Some q /\ nq1 q <= c <= nq2 q /\ nq_check q = match k with QcNo => 1 | QcMaybe => 2 end end.
Proof. exact c_nfcqc_spec. Qed.
Print Assumptions C94_nfcqc.
Example C94_nfcqc_case : (exists i q, returns_nfcqc glibc_bsearch I8 0x340 i /\ nth_error (t_nfcqc tr46_data) (Z.to_nat i) = Some q /\ nq_check q = 1) /\
  (exists i q, returns_nfcqc glibc_bsearch U8 0x301 i /\ nth_error (t_nfcqc tr46_data) (Z.to_nat i) = Some q /\ nq_check q = 2) /\ returns_nfcqc linear_bsearch U8 0x61 (-1).
Proof. exact case_nfcqc. Qed.

(** What C93 takes these functions to return is what their text returns. *)
Theorem C94_label_classes : forall U bs c v, c11_bsearch bs -> 0 <= c < two32 ->
  (calls_lib U "_idn2_disallowed_p" [(U32, c)] v -> returns_class bs DISALLOWED c v) /\ (calls_lib U "_idn2_contextj_p" [(U32, c)] v -> returns_class bs CONTEXTJ c v) /\
  (calls_lib U "_idn2_contexto_p" [(U32, c)] v -> returns_class bs CONTEXTO c v) /\ (calls_lib U "_idn2_unassigned_p" [(U32, c)] v -> returns_class bs UNASSIGNED c v).
Proof. exact lib_classes. Qed.
Print Assumptions C94_label_classes.
Theorem C94_label_maps : forall U bs c i, c11_bsearch bs -> 0 <= c < two32 -> calls_lib U "get_idna_map" [(U32, c)] i -> forall v, exists rc m, returns_map bs c v rc m /\ v_idx m = Some i /\
  forall flags b, 0 <= flags < two32 -> calls_lib U "map_is" [(U32, i); (I32, flags)] b -> returns_flag bs m flags b.
Proof. exact lib_maps. Qed.
Print Assumptions C94_label_maps.
Theorem C94_label_nfcqc : forall U bs ch c k, c11_bsearch bs -> calls_lib U "get_nfcqc_map" [(U32, c)] k -> exists i, returns_nfcqc bs ch c i /\
  (i = -1 /\ k = -1 \/ exists q, 0 <= i /\ nth_error (t_nfcqc tr46_data) (Z.to_nat i) = Some q /\ nq_check q = k).
Proof. exact lib_nfcqc. Qed.
Print Assumptions C94_label_nfcqc.
Example C94_label_case : calls_lib ucd "_idn2_disallowed_p" [(U32, 0x41)] 1 /\
  (exists i, calls_lib ucd "get_idna_map" [(U32, 0xdf)] i /\ calls_lib ucd "map_is" [(U32, i); (I32, 8)] 1) /\ calls_lib ucd "get_nfcqc_map" [(U32, 0x340)] 1.
Proof. exact case_lib. Qed.

(** The hypothesis is met by glibc's search, and by one that looks at every element. *)
Theorem C94_bsearch : c11_bsearch glibc_bsearch /\ c11_bsearch linear_bsearch.
Proof. exact conforming. Qed.
Print Assumptions C94_bsearch.
(** No two unsequenced side effects on one object. *)
Theorem C94_order : forallb (fun f => all_sequenced (f_body f))
  [c_compare; c_property 0; c_is PVALID; c_compare_idna_map; c_get_idna_map 0 0 0; c_map_is; c_compare_nfcqc_map; c_get_nfcqc_map 0; c_get_map_data] = true.
Proof. exact table_sequenced. Qed.
Print Assumptions C94_order.
