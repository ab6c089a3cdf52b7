(** What the Unicode data files say about a code point, independent of the
    generated tables and of binary search: the row whose range contains it. *)
From Verif Require Import Base DataTypes DataCsv DataTr46 DataNfc.

Definition in_range (lo hi c : Z) : bool := (lo <=? c) && (c <=? hi).

(** IDNA2008 derived property according to idna-tables-properties.csv. *)
Definition csv_property (c : Z) : prop :=
  match find (fun r => in_range (p_lo r) (p_hi r) c) csv_rows with
  | Some r => p_prop r
  | None => UNASSIGNED
  end.

(** Row of IdnaMappingTable.txt for [c]. *)
Definition idna_row (c : Z) : option row :=
  find (fun r => in_range (r_lo r) (r_hi r) c) idna_rows.

(** NFC_QC value of [c] in DerivedNormalizationProps.txt ([None] = Yes). *)
Definition nfc_qc (c : Z) : option qc :=
  match find (fun r => in_range (q_lo r) (q_hi r) c) nfcqc_rows with
  | Some r => Some (q_qc r)
  | None => None
  end.

(** TR46 status and mapping of a code point.  Above U+10FFFF the file has no
    row; the library then reads entry 0 of its flag table, which is
    disallowed_STD3_valid. *)
Definition status_of (c : Z) : status := match idna_row c with Some r => r_status r | None => Std3Valid end.
Definition mapping_of (c : Z) : list Z := match idna_row c with Some r => r_map r | None => [] end.
