(** The status and mapping of every code point as delivered by the lookup
    functions, and what the shipped table says about its rows. *)
From Verif Require Import Base DataTypes DataTr46 Bsearch BsearchProofs Tables TablesProofs SpecTables Gentr46 Tr46Tables Tr46Map Tr46Valid.

Definition status_eqb (a b : status) : bool :=
  match a, b with
  | Valid, Valid | Mapped, Mapped | Ignored, Ignored | Deviation, Deviation | Disallowed, Disallowed
  | Std3Mapped, Std3Mapped | Std3Valid, Std3Valid => true
  | _, _ => false
  end.
Lemma status_eqb_iff : forall a b, status_eqb a b = true <-> a = b.
Proof. intros [] []; cbn; split; congruence. Qed.

Lemma flag_eqb : forall a b, (Z.land (flag_of a) (flag_of b) =? flag_of b) = status_eqb a b.
Proof. intros [] []; reflexivity. Qed.

Lemma rows_top : forallb (fun r => (0 <=? r_lo r) && (r_hi r <=? 0x10ffff)) idna_rows = true.
Proof. vm_cast_no_check (eq_refl true). Qed.
Lemma find_in : forall c r, idna_row c = Some r -> In r idna_rows /\ r_lo r <= c <= r_hi r.
Proof.
  intros c r H. unfold idna_row in H. apply find_some in H. destruct H as (I & C). unfold in_range in C.
  rewrite andb_true_iff, !Z.leb_le in C. auto.
Qed.
Lemma idna_row_range : forall c r, idna_row c = Some r -> 0 <= c <= 0x10ffff.
Proof.
  intros c r H. apply find_in in H. destruct H as (I & C). pose proof rows_top as A. rewrite forallb_forall in A.
  apply A in I. rewrite andb_true_iff, !Z.leb_le in I. lia.
Qed.

Lemma map_facts : forall c, 0 <= c -> exists m k, get_idna_map c = Ok (m, k) /\
  (forall s, map_is m (flag_of s) = Ok (status_eqb (status_of c) s)) /\
  get_map_data m = Ok (mapping_of c) /\ m_n m = zlen (mapping_of c).
Proof.
  intros c Hc. unfold status_of, mapping_of. destruct (Z.le_gt_cases c 0x10ffff) as [L|L].
  - destruct (idna_map_spec c ltac:(lia)) as (r & m & -> & E & F & D & N). exists m, 0. split; [exact E|].
    split; [|auto]. intros s. unfold map_is, map_is_in. rewrite F. cbn [bind]. now rewrite flag_eqb.
  - destruct (idna_row c) as [r|] eqn:R; [apply idna_row_range in R; lia|].
    exists (IdnaMap 0 0 0 0 0), (-1). split; [apply idna_map_outside; lia|]. split.
    + intros s. unfold map_is, map_is_in. cbn [m_idx]. rewrite flags0. cbn [bind].
      change FLG_DISALLOWED_STD3_VALID with (flag_of Std3Valid). now rewrite flag_eqb.
    + split; [|reflexivity]. unfold get_map_data, get_map_data_in. cbn [m_off m_n].
      destruct (_ <? 0) eqn:E; [apply Z.ltb_lt in E; unfold zlen in E; lia|]. reflexivity.
Qed.

Global Opaque get_idna_map map_is get_map_data get_nfcqc_map.
