(** The generator theorem in the words of C56, and the shipped files. *)
From Verif Require Import Base PunyBase DataTypes DataTr46 DataNfc Bsearch BsearchProofs Gentr46 Tr46Map Tr46Facts SpecTables SpecGen Gentr46Print.

Lemma gen_hit : forall rows qs T, Forall row_ok rows -> (forall b, In b bounds -> split_at rows b) -> qrows_apart qs ->
  gentr46map rows qs = Some T -> forall r c, In r rows -> within c r ->
  exists m, get_idna_map_in T c = Ok (m, 0) /\ (forall s, map_is_in T m (tr46_flag s) = Ok true <-> r_status r = s) /\
    get_map_data_in T m = Ok (r_map r) /\ m_n m = zlen (r_map r).
Proof.
  intros rows qs T F S Q G r c I W. destruct (generated_ok rows qs T F S Q G) as (H & _). destruct (H r c I W) as (m & H1 & H2 & H3 & H4).
  exists m. split; [exact H1|]. split; [|split; assumption]. intros s. unfold map_is_in. rewrite H2. cbn [bind].
  split; [intros X|intros ->; destruct s; reflexivity]. destruct (r_status r), s; try reflexivity; discriminate X.
Qed.
Lemma gen_miss : forall rows qs T, Forall row_ok rows -> (forall b, In b bounds -> split_at rows b) -> qrows_apart qs ->
  gentr46map rows qs = Some T -> forall c, 0 <= c -> (forall r, In r rows -> ~ within c r) -> exists m, get_idna_map_in T c = Ok (m, -1).
Proof.
  intros rows qs T F S Q G c C N. destruct (generated_ok rows qs T F S Q G) as (_ & H & _). eexists. apply H; assumption.
Qed.
Lemma gen_qc : forall rows qs T, Forall row_ok rows -> (forall b, In b bounds -> split_at rows b) -> qrows_apart qs ->
  gentr46map rows qs = Some T -> forall c,
  (forall r, In r qs -> in_qrow c r -> exists m, get_nfcqc_in T c = Ok (Some m) /\ match q_qc r with QcNo => nq_check m = 1 | QcMaybe => nq_check m = 2 end) /\
  ((forall r, In r qs -> ~ in_qrow c r) -> get_nfcqc_in T c = Ok None).
Proof.
  intros rows qs T F S Q G c. destruct (generated_ok rows qs T F S Q G) as (_ & _ & H). destruct (H c) as (o & H1 & H2). split.
  - intros r I W. destruct (find (covers q_lo q_hi c) qs) as [r'|] eqn:E.
    + destruct H2 as (m & -> & H2). exists m. split; [exact H1|]. assert (X : nq_check m = check_of (q_qc r)); [|rewrite X; now destruct (q_qc r)]. rewrite H2. apply find_some in E. destruct E as (I' & C). apply covers_iff in C.
      destruct Q as (_ & P). unfold in_qrow in W. destruct (ForallOrdPairs_In P _ _ I I') as [->|[K|K]]; [reflexivity|lia|lia].
    + pose proof (find_none _ _ E r I) as K. assert (covers q_lo q_hi c r = true) by (apply covers_iff; exact W). congruence.
  - intros N. destruct (find (covers q_lo q_hi c) qs) as [r'|] eqn:E; [|now rewrite H1, H2]. exfalso.
    apply find_some in E. destruct E as (I' & C). apply covers_iff in C. exact (N r' I' C).
Qed.

(** The files shipped with the library are of this kind. *)
Definition row_okb (r : row) : bool := (0 <=? r_lo r) && (r_hi r <=? 0x10ffff) && forallb (fun c => (0 <=? c) && (c <? 4294967296)) (r_map r).
Definition status_eqb (s s' : status) : bool := flag_of s =? flag_of s'.
Definition split_b (rows : list row) (b : Z) : bool :=
  forallb (fun r => negb ((r_lo r <? b) && (b <=? r_hi r))) rows &&
  forallb (fun r => forallb (fun r' => negb ((zlen (r_map r) =? 0) && (zlen (r_map r') =? 0) && status_eqb (r_status r) (r_status r')))
    (filter (fun r => r_lo r =? b) rows)) (filter (fun r => r_hi r =? b - 1) rows).
Lemma split_b_ok : forall rows b, split_b rows b = true -> split_at rows b.
Proof.
  intros rows b H. unfold split_b in H. apply andb_true_iff in H. destruct H as (H1 & H2). rewrite forallb_forall in H1, H2. split.
  - intros r I C. apply H1 in I. apply negb_true_iff in I. apply andb_false_iff in I. destruct I; zb; lia.
  - intros r r' I I' E E' M M' St. specialize (H2 r). rewrite filter_In, Z.eqb_eq in H2. specialize (H2 (conj I E)). rewrite forallb_forall in H2.
    specialize (H2 r'). rewrite filter_In, Z.eqb_eq in H2. specialize (H2 (conj I' E')). rewrite M, M', St in H2. unfold status_eqb in H2.
    cbn [zlen length Z.of_nat] in H2. rewrite !Z.eqb_refl in H2. discriminate H2.
Qed.
Lemma row_okb_ok : forall rows, forallb row_okb rows = true -> Forall row_ok rows.
Proof.
  intros rows H. rewrite forallb_forall in H. apply Forall_forall. intros r I. apply H in I. unfold row_okb in I. zb.
  split; [assumption|]. split; [assumption|]. apply Forall_forall. intros c J. rewrite forallb_forall in H1. apply H1 in J. zb.
  unfold cp32. change (2 ^ 32) with 4294967296. lia.
Qed.
Fixpoint apart_b (qs : list qrow) : bool :=
  match qs with [] => true | r :: t => (0 <=? q_lo r) && forallb (fun r' => (q_hi r <? q_lo r') || (q_hi r' <? q_lo r)) t && apart_b t end.
Lemma apart_b_ok : forall qs, apart_b qs = true -> qrows_apart qs.
Proof.
  induction qs as [|r qs IH]; intros H; [split; constructor|]. cbn [apart_b] in H. zb. destruct (IH H0) as (A & B). split; constructor; auto.
  apply Forall_forall. intros r' I. rewrite forallb_forall in H1. apply H1 in I. apply orb_true_iff in I. destruct I; zb; auto.
Qed.
Lemma shipped_rows_b : forallb row_okb idna_rows && split_b idna_rows 0x100 && split_b idna_rows 0x10000 && apart_b nfcqc_rows = true.
Proof. vm_cast_no_check (eq_refl true). Qed.
Lemma shipped_rows : Forall row_ok idna_rows /\ (forall b, In b bounds -> split_at idna_rows b) /\ qrows_apart nfcqc_rows.
Proof.
  pose proof shipped_rows_b as H. apply andb_true_iff in H. destruct H as (H & H4). apply andb_true_iff in H. destruct H as (H & H3).
  apply andb_true_iff in H. destruct H as (H1 & H2). split; [now apply row_okb_ok|]. split; [|now apply apart_b_ok].
  intros b [<-|[<-|[]]]; now apply split_b_ok.
Qed.

(** A small file: the mapping of the second range is the tail of that of the
    first, the third and fourth range are merged, the last is cut in two. *)
Definition small_rows : list row :=
  [Row 0x41 0x41 Mapped [0x61; 0x1f600]; Row 0xdf 0xdf Mapped [0x1f600]; Row 0x100 0x1ff Valid []; Row 0x200 0x300 Valid [];
   Row 0x10000 0x2ffff Disallowed []].
Definition small_q : list qrow := [Qrow 0x340 0x341 QcNo; Qrow 0x300 0x304 QcMaybe].
Lemma small_case : Forall row_ok small_rows /\ (forall b, In b bounds -> split_at small_rows b) /\ qrows_apart small_q /\
  exists T, gentr46map small_rows small_q = Some T /\ t_mapdata T = [0x61; 0x87; 0xec; 0] /\ zlen (t_map16 T) = 7 /\ zlen (t_map24 T) = 16 /\
  get_idna_map_in T 0xdf = Ok (IdnaMap 0xdf 0 1 1 0, 0).
Proof.
  split; [apply row_okb_ok; reflexivity|]. split; [intros b [<-|[<-|[]]]; apply split_b_ok; reflexivity|]. split; [apply apart_b_ok; reflexivity|].
  eexists. split; [vm_compute; reflexivity|]. vm_compute. auto.
Qed.

(** A range in two tables, and two ranges that meet where the tables do. *)
Lemma crossing : exists rows T r c m, Forall row_ok rows /\ gentr46map rows [] = Some T /\ In r rows /\ within c r /\ get_idna_map_in T c = Ok (m, -1).
Proof.
  exists [Row 0 0x1ff Valid []]. eexists. exists (Row 0 0x1ff Valid []), 0x100. eexists. split; [apply row_okb_ok; reflexivity|].
  split; [vm_compute; reflexivity|]. split; [left; reflexivity|]. split; [unfold within; cbn; lia|]. vm_compute. reflexivity.
Qed.
Lemma meeting : exists rows T r c m, Forall row_ok rows /\ (forall r b, In r rows -> In b bounds -> ~ (r_lo r < b <= r_hi r)) /\
  gentr46map rows [] = Some T /\ In r rows /\ within c r /\ get_idna_map_in T c = Ok (m, -1).
Proof.
  exists [Row 0xe000 0xffff Valid []; Row 0x10000 0x1000b Valid []]. eexists. exists (Row 0x10000 0x1000b Valid []), 0x10000. eexists.
  split; [apply row_okb_ok; reflexivity|].
  split. { intros r b [<-|[<-|[]]] [<-|[<-|[]]]; cbn; lia. }
  split; [vm_compute; reflexivity|]. split; [right; left; reflexivity|]. split; [unfold within; cbn; lia|]. vm_compute. reflexivity.
Qed.
