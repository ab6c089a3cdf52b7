(** Property C72: the C files which the generators write. *)
From Verif Require Import Base DataTypes DataTr46 DataNfc Gentr46 Tr46Map Tables SpecGen Scan SpecScan TextIdna TextProps TextCsv ShipIdna ShipProps ShipCsv
  GenText SpecCText CTextTop CTextData CTextShip.

(** C72: read as C, the text that gentr46map prints declares exactly the arrays
    it has computed, each of the size given in its declaration, and every element
    fits its type; whatever the data files. *)
Theorem C72_tr46map_data : forall t p s, gentr46map_run t p = Ok s -> exists T, gentr46map_text t p = Ok T /\ tr46map_data_c s = Some T.
Proof. exact run_tr46. Qed.
Print Assumptions C72_tr46map_data.
(** It is printed for all data files in the format whose tables can be built. *)
Theorem C72_tr46map_total : forall t p rows qs, idna_file 1022 t rows -> props_file 1022 p qs -> Forall row_ok rows ->
  match gentr46map rows qs with
  | Some T => exists s, gentr46map_run t p = Ok s /\ tr46map_data_c s = Some T
  | None => exists rc, gentr46map_run t p = Fail rc
  end.
Proof. exact idna_run. Qed.
Print Assumptions C72_tr46map_total.
Example C72_tr46map_case : gentr46map_run run_idna run_props = Ok printed /\
  tr46map_data_c printed = Some (Tr46Tables [8; 1] [0xdf; 0; 4; 0; 0] []
    [1; 0; 0; 0xff; 0xff; 0; 0; 1; 2; 0; 0; 0xff; 0xff; 0; 0; 1] [0x73; 0x73] [NfcQc 0x340 0x341 1]).
Proof. exact run_case. Qed.

(** data.c declares the rows of the CSV file that are not UNASSIGNED, in order,
    and their number. *)
Theorem C72_data : forall t rows, csv_file 1022 t rows -> exists s, gendata_run t = Ok s /\ data_c s = Some (gendata rows, zlen (gendata rows)).
Proof. exact csv_run. Qed.
Print Assumptions C72_data.
Example C72_data_case : gendata_run csv_case = Ok csv_printed /\
  data_c csv_printed = Some ([IdnaEntry 0 0x2c DISALLOWED; IdnaEntry 0x200c 0x200c CONTEXTJ], 2).
Proof. exact csv_run_case. Qed.
(** But it prints what does not compile without a word. *)
Theorem C72_unchecked_refuted : exists t s, gendata_run t = Ok s /\ data_c s = None.
Proof. exact unchecked. Qed.
Print Assumptions C72_unchecked_refuted.

(** The C files made of the files of the distribution: data.c is the table that
    the other theorems are about, and the arrays of tr46map_data.c answer every
    question as the data files do. *)
Theorem C72_shipped_data : exists s, gendata_run csv_text = Ok s /\ data_c s = Some (idna_table, zlen idna_table).
Proof. exact ship_data. Qed.
Print Assumptions C72_shipped_data.
Theorem C72_shipped_tr46map : exists s T, gentr46map_run idna_text props_text = Ok s /\ tr46map_data_c s = Some T /\
  (forall r c, In r idna_rows -> within c r -> exists m, get_idna_map_in T c = Ok (m, 0) /\
     (forall st, map_is_in T m (tr46_flag st) = Ok true <-> r_status r = st) /\ get_map_data_in T m = Ok (r_map r) /\ m_n m = zlen (r_map r)) /\
  (forall c, 0 <= c -> (forall r, In r idna_rows -> ~ within c r) -> exists m, get_idna_map_in T c = Ok (m, -1)) /\
  (forall c,
     (forall r, In r nfcqc_rows -> in_qrow c r -> exists m, get_nfcqc_in T c = Ok (Some m) /\ match q_qc r with QcNo => nq_check m = 1 | QcMaybe => nq_check m = 2 end) /\
     ((forall r, In r nfcqc_rows -> ~ in_qrow c r) -> get_nfcqc_in T c = Ok None)).
Proof. exact ship_tr46. Qed.
Print Assumptions C72_shipped_tr46map.
