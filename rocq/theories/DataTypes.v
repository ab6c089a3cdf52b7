(** Row types of the Unicode data files that libidn2's generators read. *)
From Verif Require Import Base.

(** IdnaMappingTable.txt: code point range; status; mapping. *)
Inductive status :=
  Valid | Mapped | Ignored | Deviation | Disallowed | Std3Mapped | Std3Valid.
Record row := Row { r_lo : Z; r_hi : Z; r_status : status; r_map : list Z }.

(** idna-tables-properties.csv: code point range, property.  The constructors
    are in the order of the C enum in lib/data.h:36-39. *)
Inductive prop := PVALID | CONTEXTJ | CONTEXTO | DISALLOWED | UNASSIGNED.
Record prow := Prow { p_lo : Z; p_hi : Z; p_prop : prop }.

(** DerivedNormalizationProps.txt: code point range; NFC_QC; N or M. *)
Inductive qc := QcNo | QcMaybe.
Record qrow := Qrow { q_lo : Z; q_hi : Z; q_qc : qc }.
