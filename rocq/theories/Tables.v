(** lib/gendata.c and lib/tables.c: the IDNA2008 derived property table. *)
From Verif Require Import Base DataTypes DataCsv Bsearch.

(** struct idna_table, lib/data.h:41-46. *)
Record idna_entry := IdnaEntry { ie_start : Z; ie_end : Z; ie_state : prop }.

Definition prop_eqb (a b : prop) : bool :=
  match a, b with
  | PVALID, PVALID | CONTEXTJ, CONTEXTJ | CONTEXTO, CONTEXTO
  | DISALLOWED, DISALLOWED | UNASSIGNED, UNASSIGNED => true
  | _, _ => false
  end.

(** gendata.c:73-89: every CSV row becomes one initializer, in order, except
    that UNASSIGNED rows are skipped.  (Field splitting is in Scan.v, printing
    in GenText.v.) *)
Fixpoint gendata (rows : list prow) : list idna_entry :=
  match rows with
  | [] => []
  | r :: rs =>
      match p_prop r with
      | UNASSIGNED => gendata rs
      | p => IdnaEntry (p_lo r) (p_hi r) p :: gendata rs
      end
  end.

(** The array idna_table of the generated data.c. *)
Definition idna_table : list idna_entry := Eval vm_compute in gendata csv_rows.

(** tables.c:37-45 [_compare]. *)
Definition compare_prop (cp : Z) (m2 : idna_entry) : Z :=
  if cp <? ie_start m2 then -1
  else if ie_end m2 <? cp then 1
  else 0.

(** Element access in idna_table; out of bounds is undefined. *)
Definition elem {A} (t : list A) (i : Z) : out A :=
  if i <? 0 then Undef else
  match nth_error t (Z.to_nat i) with Some e => Ok e | None => Undef end.

(** tables.c:47-64 [property], for a table [t]. *)
Definition property_in (t : list idna_entry) (cp : Z) : out prop :=
  let* r := bsearch (fun i => let* e := elem t i in Ok (compare_prop cp e)) (zlen t) in
  match r with
  | Some i => let* e := elem t i in Ok (ie_state e)
  | None => Ok UNASSIGNED
  end.
Definition property (cp : Z) : out prop := property_in idna_table cp.

(** tables.c:66-88. *)
Definition disallowed_p (cp : Z) : out bool := let* p := property cp in Ok (prop_eqb p DISALLOWED).
Definition contextj_p (cp : Z) : out bool := let* p := property cp in Ok (prop_eqb p CONTEXTJ).
Definition contexto_p (cp : Z) : out bool := let* p := property cp in Ok (prop_eqb p CONTEXTO).
Definition unassigned_p (cp : Z) : out bool := let* p := property cp in Ok (prop_eqb p UNASSIGNED).
