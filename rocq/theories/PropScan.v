(** Property C62: how the generators read their data files. *)
From Verif Require Import Base DataTypes DataTr46 DataNfc DataCsv Gentr46 Tr46Map Tables SpecGen Scan SpecScan ScanProofs
  TextIdna TextProps TextCsv ScanTop.

(** C62: of a file in the documented format, with lines of at most 1022 bytes, the
    programs read what the file says. *)
Theorem C62_mapping_file : forall t rows, idna_file 1022 t rows -> scan_file scan_idna t = Ok rows.
Proof. exact scan_idna_file. Qed.
Print Assumptions C62_mapping_file.
Theorem C62_props_file : forall t rows, props_file 1022 t rows -> scan_file scan_nfcqc t = Ok rows.
Proof. exact scan_props_file. Qed.
Print Assumptions C62_props_file.
Theorem C62_csv_file : forall t rows, csv_file 1022 t rows -> gendata_text t = Ok (gendata rows).
Proof. exact gendata_file. Qed.
Print Assumptions C62_csv_file.
(** From the text to the answers of the tables. *)
Theorem C62_text_to_table : forall t p rows qs T, idna_file 1022 t rows -> props_file 1022 p qs ->
  Forall row_ok rows -> (forall b, In b bounds -> split_at rows b) -> qrows_apart qs ->
  gentr46map_text t p = Ok T -> forall r c, In r rows -> within c r ->
  exists m, get_idna_map_in T c = Ok (m, 0) /\ (forall s, map_is_in T m (tr46_flag s) = Ok true <-> r_status r = s) /\
    get_map_data_in T m = Ok (r_map r) /\ m_n m = zlen (r_map r).
Proof. exact text_hit. Qed.
Print Assumptions C62_text_to_table.
Example C62_case : idna_file 1022 sample sample_rows /\ props_file 1022 props_sample [Qrow 0x340 0x341 QcNo; Qrow 0x653 0x655 QcMaybe] /\
  csv_file 1022 csv_sample csv_rows_sample /\
  gendata_text csv_sample = Ok [IdnaEntry 0 0x2c DISALLOWED; IdnaEntry 0x2d 0x2d PVALID; IdnaEntry 0x200c 0x200c CONTEXTJ].
Proof. exact sample_case. Qed.

(** The files of the distribution, byte by byte, are in the format and say what
    DataTr46.v, DataNfc.v and DataCsv.v say. *)
Theorem C62_shipped : idna_file 1022 idna_text idna_rows /\ props_file 1022 props_text nfcqc_rows /\ csv_file 1022 csv_text csv_rows.
Proof. exact shipped_texts. Qed.
Print Assumptions C62_shipped.
(** The tables in the library answer what their text says. *)
Theorem C62_library_map : forall rows r c, idna_file 1022 idna_text rows -> In r rows -> r_lo r <= c <= r_hi r -> 0 <= c <= 0x10ffff ->
  exists m, get_idna_map c = Ok (m, 0) /\ (forall s, map_is m (tr46_flag s) = Ok true <-> r_status r = s) /\
    get_map_data m = Ok (r_map r) /\ m_n m = zlen (r_map r).
Proof. exact library_map. Qed.
Print Assumptions C62_library_map.
Theorem C62_library_property : forall rows r c, csv_file 1022 csv_text rows -> In r rows -> p_lo r <= c <= p_hi r -> p_prop r <> UNASSIGNED ->
  property c = Ok (p_prop r).
Proof. exact library_property. Qed.
Print Assumptions C62_library_property.

(** Longer lines are cut, and the rest of a comment is taken for data. *)
Theorem C62_long_lines_refuted : exists t rows rows', idna_file 2000 t rows /\ scan_file scan_idna t = Ok rows' /\ rows' <> rows /\
  rows = [Row 0x41 0x41 Valid []] /\ rows' = [Row 0x41 0x41 Valid []; Row 0x42 0x42 Valid []].
Proof. exact long_lines. Qed.
Print Assumptions C62_long_lines_refuted.
(** Not every malformed file is complained about. *)
Theorem C62_malformed_refuted : exists t rows, (forall max r, ~ idna_file max t r) /\ scan_file scan_idna t = Ok rows /\
  rows = [Row 0x41 0x41 Valid []].
Proof. exact torn_silent. Qed.
Print Assumptions C62_malformed_refuted.
