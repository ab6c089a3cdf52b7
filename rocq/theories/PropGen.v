(** Property C56: the table generator. *)
From Verif Require Import Base DataTypes DataTr46 DataNfc Gentr46 Tr46Map SpecGen GenTop.

(** C56: whatever the data files, if gentr46map reports nothing, its tables
    answer as the files do. *)
Theorem C56_mapping : forall rows qs T, Forall row_ok rows -> (forall b, In b bounds -> split_at rows b) -> qrows_apart qs ->
  gentr46map rows qs = Some T -> forall r c, In r rows -> within c r ->
  exists m, get_idna_map_in T c = Ok (m, 0) /\ (forall s, map_is_in T m (tr46_flag s) = Ok true <-> r_status r = s) /\
    get_map_data_in T m = Ok (r_map r) /\ m_n m = zlen (r_map r).
Proof. exact gen_hit. Qed.
Print Assumptions C56_mapping.
Theorem C56_unlisted : forall rows qs T, Forall row_ok rows -> (forall b, In b bounds -> split_at rows b) -> qrows_apart qs ->
  gentr46map rows qs = Some T -> forall c, 0 <= c -> (forall r, In r rows -> ~ within c r) -> exists m, get_idna_map_in T c = Ok (m, -1).
Proof. exact gen_miss. Qed.
Print Assumptions C56_unlisted.
Theorem C56_quick_check : forall rows qs T, Forall row_ok rows -> (forall b, In b bounds -> split_at rows b) -> qrows_apart qs ->
  gentr46map rows qs = Some T -> forall c,
  (forall r, In r qs -> in_qrow c r -> exists m, get_nfcqc_in T c = Ok (Some m) /\ match q_qc r with QcNo => nq_check m = 1 | QcMaybe => nq_check m = 2 end) /\
  ((forall r, In r qs -> ~ in_qrow c r) -> get_nfcqc_in T c = Ok None).
Proof. exact gen_qc. Qed.
Print Assumptions C56_quick_check.
(** The files of Unicode 14 are within these conditions. *)
Theorem C56_shipped : Forall row_ok idna_rows /\ (forall b, In b bounds -> split_at idna_rows b) /\ qrows_apart nfcqc_rows.
Proof. exact shipped_rows. Qed.
Print Assumptions C56_shipped.
Example C56_case : Forall row_ok small_rows /\ (forall b, In b bounds -> split_at small_rows b) /\ qrows_apart small_q /\
  exists T, gentr46map small_rows small_q = Some T /\ t_mapdata T = [0x61; 0x87; 0xec; 0] /\ zlen (t_map16 T) = 7 /\ zlen (t_map24 T) = 16 /\
  get_idna_map_in T 0xdf = Ok (IdnaMap 0xdf 0 1 1 0, 0).
Proof. exact small_case. Qed.
(** Without the condition at the borders of the tables the generator silently
    loses code points: those of a range that lies across one, or of a range
    merged with its neighbour across one. *)
Theorem C56_crossing_refuted : exists rows T r c m,
  Forall row_ok rows /\ gentr46map rows [] = Some T /\ In r rows /\ within c r /\ get_idna_map_in T c = Ok (m, -1).
Proof. exact crossing. Qed.
Print Assumptions C56_crossing_refuted.
Theorem C56_meeting_refuted : exists rows T r c m,
  Forall row_ok rows /\ (forall r b, In r rows -> In b bounds -> ~ (r_lo r < b <= r_hi r)) /\
  gentr46map rows [] = Some T /\ In r rows /\ within c r /\ get_idna_map_in T c = Ok (m, -1).
Proof. exact meeting. Qed.
Print Assumptions C56_meeting_refuted.
