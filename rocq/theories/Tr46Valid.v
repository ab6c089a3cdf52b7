(** The packed tables linked into the library say, for every code point, what
    IdnaMappingTable.txt says. *)
From Verif Require Import Base PunyBase DataTypes DataTr46 DataNfc Bsearch BsearchProofs Tables TablesProofs
  Gentr46 Tr46Tables Tr46Map SpecTables.

(** * Reading a packed table as a list of records *)
Fixpoint recs (n : nat) (c : Z) (size : nat) (tbl : list Z) : list idnamap :=
  match n with
  | O => []
  | S n' => match fill_map c tbl with
            | Ok m => m :: recs n' c size (skipn size tbl)
            | _ => []
            end
  end.

Definition size_of (c : Z) : Z := if c <=? 0xff then 5 else if c <=? 0xffff then 7 else 8.
Definition class (c : Z) : Z := if c <=? 0xff then 0 else if c <=? 0xffff then 1 else 2.

Lemma fill_map_class : forall c c' p, class c = class c' -> fill_map c p = fill_map c' p.
Proof.
  intros c c' p H. unfold class, fill_map in *.
  destruct (c <=? 255) eqn:E1, (c' <=? 255) eqn:E2, (c <=? 65535) eqn:E3, (c' <=? 65535) eqn:E4;
    try discriminate; reflexivity.
Qed.

Lemma skipn_skipn' : forall {A} (l : list A) n m, skipn n (skipn m l) = skipn (m + n) l.
Proof.
  intros A l n m. revert l. induction m as [|m IH]; intros l; [reflexivity|].
  destruct l as [|x l]; [cbn; now rewrite skipn_nil|]. cbn [skipn Nat.add]. apply IH.
Qed.

Lemma recs_nth : forall n c size tbl i m, nth_error (recs n c size tbl) i = Some m ->
  fill_map c (skipn (i * size) tbl) = Ok m.
Proof.
  induction n as [|n IH]; intros c size tbl i m H; [destruct i; discriminate|]. cbn [recs] in H.
  destruct (fill_map c tbl) as [m0| | |] eqn:E; try (destruct i; discriminate).
  destruct i as [|i]; cbn [nth_error] in H.
  - inversion H; subst. exact E.
  - apply IH in H. rewrite skipn_skipn' in H. exact H.
Qed.

Definition m_hi (m : idnamap) : Z := m_cp1 m + m_range m.

(** Searching a table is finding the covering record. *)
Lemma search_map_spec : forall c c0 tbl n b,
  class c = class c0 ->
  zlen tbl = Z.of_nat n * size_of c0 ->
  length (recs n c0 (Z.to_nat (size_of c0)) tbl) = n ->
  sorted_from m_cp1 m_hi b (recs n c0 (Z.to_nat (size_of c0)) tbl) = true ->
  search_map c tbl (size_of c0) =
  match find (covers m_cp1 m_hi c) (recs n c0 (Z.to_nat (size_of c0)) tbl) with
  | Some m => Ok (m, 0)
  | None => Ok (IdnaMap 0 0 0 0 0, -1)
  end.
Proof.
  intros c c0 tbl n b Hc Hl Hr Hs. unfold search_map.
  assert (Hsz : 0 < size_of c0) by (unfold size_of; destruct (c0 <=? 255), (c0 <=? 65535); lia).
  assert (P : forall i m, nth_error (recs n c0 (Z.to_nat (size_of c0)) tbl) (Z.to_nat i) = Some m -> 0 <= i ->
     fill_map c (ptr tbl (size_of c0) i) = Ok m).
  { intros i m E Hi. apply recs_nth in E. rewrite (fill_map_class c c0) by auto. unfold ptr. rewrite Z2Nat.inj_mul by lia. exact E. }
  set (R := recs n c0 (Z.to_nat (size_of c0)) tbl) in *.
  set (cmp := fun i => _).
  assert (Hdiv : zlen tbl / size_of c0 = zlen R).
  { rewrite Hl, Z.div_mul by lia. unfold zlen. rewrite Hr. reflexivity. }
  rewrite Hdiv.
  pose proof (bsearch_intervals m_cp1 m_hi R b c cmp Hs) as B.
  assert (Hcmp : forall i x, nth_error R (Z.to_nat i) = Some x -> 0 <= i ->
    cmp i = Ok (if c <? m_cp1 x then -1 else if m_hi x <? c then 1 else 0)).
  { intros i x E Hi. unfold cmp, compare_idna_map. rewrite (P i x E Hi). cbn [bind]. unfold m_hi.
    destruct (c <? m_cp1 x); [reflexivity|]. destruct (_ <? c); reflexivity. }
  specialize (B Hcmp). destruct (find _ R) as [m|].
  - destruct B as (i & Hi & B & E). rewrite B. cbn [bind]. rewrite (P i m E Hi). reflexivity.
  - rewrite B. reflexivity.
Qed.

(** * Checking records against rows *)
Fixpoint zs_eqb (a b : list Z) : bool :=
  match a, b with
  | [], [] => true
  | x :: a', y :: b' => (x =? y) && zs_eqb a' b'
  | _, _ => false
  end.
Lemma zs_eqb_eq : forall a b, zs_eqb a b = true -> a = b.
Proof.
  induction a as [|x a IH]; intros [|y b] H; cbn [zs_eqb] in H; try discriminate; auto.
  apply andb_true_iff in H. destruct H as (H1 & H2). zb. subst. f_equal. auto.
Qed.

(** [m] represents a row with status [st] and mapping [mp]; [dat] gives the
    mapping data from an offset on. *)
Definition entry_ok (flags : list Z) (dat : Z -> list Z) (len : Z) (m : idnamap) (r : row) : bool :=
  match rd flags (m_idx m) with Ok f => f =? flag_of (r_status r) | _ => false end
  && (m_n m =? zlen (r_map r)) && (0 <=? m_off m) && (m_off m <=? len)
  && match stream_cps (Z.to_nat (m_n m)) (dat (m_off m)) with Ok l => zs_eqb l (r_map r) | _ => false end.

Fixpoint walk (fuel : nat) (ok : idnamap -> row -> bool) (b : Z) (rows : list row) (es : list idnamap) (top : Z) : bool :=
  match fuel with
  | O => false
  | S fuel =>
      match rows, es with
      | [], _ => b =? top
      | r :: rs, e :: es' =>
          if (r_lo r <=? b) && (b <=? r_hi r) && (m_cp1 e <=? b) && (b <=? m_hi e) then
            if ok e r then
              if r_hi r =? m_hi e then walk fuel ok (r_hi r + 1) rs es' top
              else if r_hi r <? m_hi e then walk fuel ok (r_hi r + 1) rs es top
              else walk fuel ok (m_hi e + 1) rows es' top
            else false
          else false
      | _, _ => false
      end
  end.

Lemma walk_spec : forall fuel ok b rows es top c, walk fuel ok b rows es top = true -> b <= c < top ->
  exists r e, In r rows /\ In e es /\ r_lo r <= c <= r_hi r /\ m_cp1 e <= c <= m_hi e /\ ok e r = true.
Proof.
  induction fuel as [|fuel IH]; intros ok b rows es top c H Hc; [discriminate|]. cbn [walk] in H.
  destruct rows as [|r rs]; [zb; lia|].
  destruct es as [|e es']; [discriminate|].
  destruct (_ && _) eqn:G; [|discriminate]. rewrite !andb_true_iff, !Z.leb_le in G.
  destruct (ok e r) eqn:K; [|discriminate].
  assert (D : (c <= r_hi r /\ c <= m_hi e) \/ r_hi r < c \/ m_hi e < c) by lia.
  destruct D as [D|D].
  { exists r, e. split; [left; reflexivity|]. split; [left; reflexivity|]. split; [lia|]. split; [lia|exact K]. }
  destruct (r_hi r =? m_hi e) eqn:E1; zb.
  - apply (IH _ _ _ _ _ c) in H; [|lia]. destruct H as (r' & e' & I1 & I2 & J).
    exists r', e'. split; [right; exact I1|]. split; [right; exact I2|exact J].
  - destruct (r_hi r <? m_hi e) eqn:E2; zb.
    + assert (DD : r_hi r < c \/ c <= r_hi r) by lia. destruct DD as [DD|DD].
      * apply (IH _ _ _ _ _ c) in H; [|lia]. destruct H as (r' & e' & I1 & I2 & J).
        exists r', e'. split; [right; exact I1|]. split; [exact I2|exact J].
      * lia.
    + assert (DD : m_hi e < c \/ c <= m_hi e) by lia. destruct DD as [DD|DD].
      * apply (IH _ _ _ _ _ c) in H; [|lia]. destruct H as (r' & e' & I1 & I2 & J).
        exists r', e'. split; [exact I1|]. split; [right; exact I2|exact J].
      * lia.
Qed.

(** Access into the pieces of the mapping data. *)
Fixpoint skip_pieces (fuel : nat) (off : Z) (ps : list (list Z)) : list Z :=
  match fuel, ps with
  | S fuel, p :: ps' => if off <? 128 then skipn (Z.to_nat off) p ++ concat ps' else skip_pieces fuel (off - 128) ps'
  | _, _ => concat ps
  end.
Fixpoint pieces_ok (ps : list (list Z)) : bool :=
  match ps with
  | [] => true
  | [p] => zlen p <=? 128
  | p :: ps' => (zlen p =? 128) && pieces_ok ps'
  end.

Lemma skip_pieces_spec : forall fuel ps off, pieces_ok ps = true -> 0 <= off <= zlen (concat ps) ->
  off < 128 * Z.of_nat fuel -> skip_pieces fuel off ps = skipn (Z.to_nat off) (concat ps).
Proof.
  induction fuel as [|fuel IH]; intros ps off H Ho Hf; [lia|]. cbn [skip_pieces].
  destruct ps as [|p ps].
  { cbn [concat] in *. now rewrite skipn_nil. }
  assert (Hp : (ps = [] /\ zlen p <= 128) \/ (zlen p = 128 /\ pieces_ok ps = true)).
  { destruct ps as [|q ps]; [left|right]; cbn [pieces_ok] in H; [zb; auto|]. apply andb_true_iff in H. destruct H. zb. auto. }
  cbn [concat] in *. destruct (off <? 128) eqn:E; zb.
  - rewrite skipn_app. destruct Hp as [(-> & L)|(L & _)].
    + cbn [concat]. rewrite skipn_nil. reflexivity.
    + replace (Z.to_nat off - length p)%nat with 0%nat by (unfold zlen in L; lia). reflexivity.
  - destruct Hp as [(-> & L)|(L & P)].
    + cbn [concat] in *. rewrite app_nil_r in *.
      destruct fuel; cbn [skip_pieces concat]; symmetry; apply skipn_all2; unfold zlen in *; lia.
    + rewrite IH; auto.
      * rewrite skipn_app. rewrite (skipn_all2 p) by (unfold zlen in L; lia). cbn [app].
        f_equal. unfold zlen in L. lia.
      * unfold zlen in *. rewrite app_length in Ho. lia.
      * lia.
Qed.

(** * Tables that pass the check *)
Section Generic.
  Variable T : tr46_tables.
  Variable rows : list row.
  Variables r8 r16 r24 : list idnamap.
  Variables n8 n16 n24 : nat.
  Variable ok : idnamap -> row -> bool.
  Variable fuel : nat.
  Hypothesis R8 : r8 = recs n8 0 5 (t_map8 T).
  Hypothesis R16 : r16 = recs n16 0x100 7 (t_map16 T).
  Hypothesis R24 : r24 = recs n24 0x10000 8 (t_map24 T).
  Hypothesis L8 : zlen (t_map8 T) = Z.of_nat n8 * 5.
  Hypothesis L16 : zlen (t_map16 T) = Z.of_nat n16 * 7.
  Hypothesis L24 : zlen (t_map24 T) = Z.of_nat n24 * 8.
  Hypothesis N8 : length r8 = n8.
  Hypothesis N16 : length r16 = n16.
  Hypothesis N24 : length r24 = n24.
  Hypothesis S8 : sorted_from m_cp1 m_hi 0 r8 = true.
  Hypothesis S16 : sorted_from m_cp1 m_hi 0x100 r16 = true.
  Hypothesis S24 : sorted_from m_cp1 m_hi 0x10000 r24 = true.
  Hypothesis F8 : forall m, In m r8 -> m_hi m <= 0xff.
  Hypothesis F16 : forall m, In m r16 -> m_hi m <= 0xffff.
  Hypothesis F24 : forall m, In m r24 -> m_hi m <= 0x10ffff.

Lemma get_idna_map_find : forall c, 0 <= c <= 0xffffff ->
  get_idna_map_in T c =
  match find (covers m_cp1 m_hi c) (if c <=? 0xff then r8 else if c <=? 0xffff then r16 else r24) with
  | Some m => Ok (m, 0)
  | None => Ok (IdnaMap 0 0 0 0 0, -1)
  end.
Proof.
  intros c Hc. unfold get_idna_map_in.
  destruct (c <=? 0xff) eqn:E1; zb; [|destruct (c <=? 0xffff) eqn:E2; zb].
  - rewrite R8 in *. apply (search_map_spec c 0 (t_map8 T) n8 0); auto.
    unfold class. destruct (c <=? 0xff) eqn:E; zb; [reflexivity|lia].
  - rewrite R16 in *. apply (search_map_spec c 0x100 (t_map16 T) n16 0x100); auto.
    unfold class. destruct (c <=? 0xff) eqn:E; zb; [lia|]. destruct (c <=? 0xffff) eqn:E'; zb; [reflexivity|lia].
  - destruct (c <=? 0xffffff) eqn:E3; zb; [|lia].
    rewrite R24 in *. apply (search_map_spec c 0x10000 (t_map24 T) n24 0x10000); auto.
    unfold class. destruct (c <=? 0xff) eqn:E; zb; [lia|]. destruct (c <=? 0xffff) eqn:E'; zb; [lia|reflexivity].
Qed.

Lemma find_recs : forall c e, 0 <= c -> In e (r8 ++ r16 ++ r24) -> m_cp1 e <= c <= m_hi e ->
  c <= 0x10ffff /\
  find (covers m_cp1 m_hi c) (if c <=? 0xff then r8 else if c <=? 0xffff then r16 else r24) = Some e.
Proof.
  intros c e H0 I C.
  apply in_app_iff in I. destruct I as [I|I]; [|apply in_app_iff in I; destruct I as [I|I]].
  - pose proof (F8 e I). pose proof (sorted_in _ _ _ _ _ S8 I). zb.
    destruct (c <=? 0xff) eqn:E; zb; [|lia]. split; [lia|]. now apply (find_unique m_cp1 m_hi _ 0).
  - pose proof (F16 e I). pose proof (sorted_in _ _ _ _ _ S16 I). zb.
    destruct (c <=? 0xff) eqn:E; zb; [lia|]. destruct (c <=? 0xffff) eqn:E'; zb; [|lia]. split; [lia|].
    now apply (find_unique m_cp1 m_hi _ 0x100).
  - pose proof (F24 e I). pose proof (sorted_in _ _ _ _ _ S24 I). zb.
    destruct (c <=? 0xff) eqn:E; zb; [lia|]. destruct (c <=? 0xffff) eqn:E'; zb; [lia|]. split; [lia|].
    now apply (find_unique m_cp1 m_hi _ 0x10000).
Qed.

Lemma map_outside : forall c, 0x10ffff < c -> get_idna_map_in T c = Ok (IdnaMap 0 0 0 0 0, -1).
Proof.
  intros c Hc. destruct (Z.le_gt_cases c 0xffffff) as [L|L].
  - rewrite get_idna_map_find by lia. destruct (find _ _) as [m|] eqn:F; [|reflexivity]. exfalso.
    destruct (c <=? 0xff) eqn:E1; zb; [lia|]. destruct (c <=? 0xffff) eqn:E2; zb; [lia|].
    apply find_some in F. destruct F as (I & C). apply covers_iff in C. apply F24 in I. lia.
  - unfold get_idna_map_in.
    destruct (c <=? 0xff) eqn:E1; zb; [lia|]. destruct (c <=? 0xffff) eqn:E2; zb; [lia|].
    destruct (c <=? 0xffffff) eqn:E3; zb; [lia|]. reflexivity.
Qed.

Hypothesis SR : sorted_from r_lo r_hi 0 rows = true.
Hypothesis W : walk fuel ok 0 rows (r8 ++ r16 ++ r24) 1114112 = true.
Hypothesis OK : forall e r, ok e r = true ->
  rd (t_flags T) (m_idx e) = Ok (flag_of (r_status r)) /\
  get_map_data_in T e = Ok (r_map r) /\ m_n e = zlen (r_map r).

Lemma map_inside : forall c, 0 <= c <= 0x10ffff ->
  exists r m, find (covers r_lo r_hi c) rows = Some r /\ get_idna_map_in T c = Ok (m, 0) /\
    rd (t_flags T) (m_idx m) = Ok (flag_of (r_status r)) /\
    get_map_data_in T m = Ok (r_map r) /\ m_n m = zlen (r_map r).
Proof.
  intros c Hc.
  destruct (walk_spec _ _ _ _ _ _ c W ltac:(lia)) as (r & e & Ir & Ie & Cr & Ce & K).
  exists r, e. destruct (find_recs c e ltac:(lia) Ie Ce) as (_ & F).
  split. { exact (find_unique r_lo r_hi rows 0 c r SR Ir Cr). }
  split. { rewrite get_idna_map_find by lia. rewrite F. reflexivity. }
  exact (OK e r K).
Qed.

End Generic.

Section GenericQc.
Variable T : tr46_tables.
Variable q : list qrow.
Hypothesis KQ1 : forall r, In r q -> exists m, In m (t_nfcqc T) /\ nq1 m = q_lo r /\ nq2 m = q_hi r /\ nq_check m = check_of (q_qc r).
Hypothesis KQ2 : forall m, In m (t_nfcqc T) -> exists r, In r q /\ nq1 m = q_lo r /\ nq2 m = q_hi r.
Hypothesis SQ : sorted_from nq1 nq2 0 (t_nfcqc T) = true.
Lemma qc_spec : forall c, exists o, get_nfcqc_in T c = Ok o /\
  match find (covers q_lo q_hi c) q with
  | None => o = None
  | Some r => exists m, o = Some m /\ nq_check m = check_of (q_qc r)
  end.
Proof.
  intros c. unfold get_nfcqc_in. set (t := t_nfcqc T) in *. set (cmp := fun i => let* q := elem t i in Ok (compare_nfcqc c q)).
  pose proof (bsearch_intervals nq1 nq2 t 0 c cmp SQ) as B.
  assert (Hc : forall i x, nth_error t (Z.to_nat i) = Some x -> 0 <= i ->
    cmp i = Ok (if c <? nq1 x then -1 else if nq2 x <? c then 1 else 0)).
  { intros i x E Hi. unfold cmp. rewrite (elem_ok _ _ _ E Hi). reflexivity. }
  specialize (B Hc).
  destruct (find (covers q_lo q_hi c) q) as [r|] eqn:F.
  - apply find_some in F. destruct F as (I & C). apply covers_iff in C.
    destruct (KQ1 r I) as (m & Im & X1 & X2 & X3).
    rewrite (find_unique nq1 nq2 t 0 c m SQ Im ltac:(lia)) in B. destruct B as (i & Hi & B & E).
    rewrite B. cbn [bind]. rewrite (elem_ok _ _ _ E Hi). cbn [bind]. eauto.
  - destruct (find (covers nq1 nq2 c) t) as [m|] eqn:F2.
    + exfalso. apply find_some in F2. destruct F2 as (I & C). apply covers_iff in C.
      destruct (KQ2 m I) as (r & Ir & X1 & X2).
      pose proof (find_none _ _ F r Ir) as Y. assert (covers q_lo q_hi c r = true) by (apply covers_iff; lia). congruence.
    + exists None. rewrite B. split; reflexivity.
Qed.
End GenericQc.

(** * The linked tables pass the check *)
Definition data_pieces : list (list Z) := match tr46_pieces with (_, _, _, _, md, _) => md end.
Definition num8 : nat := Z.to_nat 91.
Definition num16 : nat := Z.to_nat 5041.
Definition num24 : nat := Z.to_nat 2663.
Definition recs8 := recs num8 0 5 (t_map8 tr46_data).
Definition recs16 := recs num16 0x100 7 (t_map16 tr46_data).
Definition recs24 := recs num24 0x10000 8 (t_map24 tr46_data).
Definition mapdata_len : Z := Eval vm_compute in zlen (t_mapdata tr46_data).

Definition ok_fast : idnamap -> row -> bool :=
  entry_ok (t_flags tr46_data) (fun off => skip_pieces 200 off data_pieces) mapdata_len.

Lemma walk_all : walk (Z.to_nat 20000) ok_fast 0 idna_rows (recs8 ++ recs16 ++ recs24) 1114112 = true.
Proof. vm_cast_no_check (eq_refl true). Qed.
Lemma len8 : (zlen (t_map8 tr46_data) =? Z.of_nat num8 * 5) && (Nat.eqb (length recs8) num8) = true.
Proof. vm_cast_no_check (eq_refl true). Qed.
Lemma len16 : (zlen (t_map16 tr46_data) =? Z.of_nat num16 * 7) && (Nat.eqb (length recs16) num16) = true.
Proof. vm_cast_no_check (eq_refl true). Qed.
Lemma len24 : (zlen (t_map24 tr46_data) =? Z.of_nat num24 * 8) && (Nat.eqb (length recs24) num24) = true.
Proof. vm_cast_no_check (eq_refl true). Qed.
Lemma lend : (zlen (t_mapdata tr46_data) =? mapdata_len) = true.
Proof. vm_cast_no_check (eq_refl true). Qed.
Lemma sorted8 : sorted_from m_cp1 m_hi 0 recs8 && forallb (fun m => m_hi m <=? 0xff) recs8 = true.
Proof. vm_cast_no_check (eq_refl true). Qed.
Lemma sorted16 : sorted_from m_cp1 m_hi 0x100 recs16 && forallb (fun m => m_hi m <=? 0xffff) recs16 = true.
Proof. vm_cast_no_check (eq_refl true). Qed.
Lemma sorted24 : sorted_from m_cp1 m_hi 0x10000 recs24 && forallb (fun m => m_hi m <=? 0x10ffff) recs24 = true.
Proof. vm_cast_no_check (eq_refl true). Qed.
Lemma data_pieces_ok : pieces_ok data_pieces = true.
Proof. vm_cast_no_check (eq_refl true). Qed.
Lemma rows_sorted : sorted_from r_lo r_hi 0 idna_rows = true.
Proof. vm_cast_no_check (eq_refl true). Qed.

Definition nq_ok (q : nfcqc) (r : qrow) : bool := (nq1 q =? q_lo r) && (nq2 q =? q_hi r) && (nq_check q =? check_of (q_qc r)).
Lemma nfcqc_complete : forallb (fun r => existsb (fun q => nq_ok q r) (t_nfcqc tr46_data)) nfcqc_rows
  && forallb (fun q => existsb (fun r => nq_ok q r) nfcqc_rows) (t_nfcqc tr46_data)
  && sorted_from nq1 nq2 0 (t_nfcqc tr46_data) = true.
Proof. vm_cast_no_check (eq_refl true). Qed.

Lemma forallb_le : forall (l : list idnamap) k, forallb (fun m => m_hi m <=? k) l = true -> forall m, In m l -> m_hi m <= k.
Proof. intros l k H m I. rewrite forallb_forall in H. apply H in I. now zb. Qed.

Lemma and2 : forall a b, a && b = true -> a = true /\ b = true.
Proof. intros a b H. now apply andb_true_iff. Qed.
Lemma eqb_len : forall a b (x y : nat), (a =? b) && (Nat.eqb x y) = true -> a = b /\ x = y.
Proof. intros a b x y H. apply andb_true_iff in H. destruct H as (H1 & H2). zb. apply Nat.eqb_eq in H2. auto. Qed.

Lemma data_pieces_eq : t_mapdata tr46_data = concat data_pieces.
Proof. reflexivity. Qed.

Lemma recs8_eq : recs8 = recs num8 0 5 (t_map8 tr46_data).
Proof. unfold recs8. reflexivity. Qed.
Lemma recs16_eq : recs16 = recs num16 0x100 7 (t_map16 tr46_data).
Proof. unfold recs16. reflexivity. Qed.
Lemma recs24_eq : recs24 = recs num24 0x10000 8 (t_map24 tr46_data).
Proof. unfold recs24. reflexivity. Qed.
Lemma flags0 : rd (t_flags tr46_data) 0 = Ok FLG_DISALLOWED_STD3_VALID.
Proof. reflexivity. Qed.
Lemma mapdata_len_small : mapdata_len < 128 * 200.
Proof. reflexivity. Qed.
Lemma idna_row_find : forall c, idna_row c = find (covers r_lo r_hi c) idna_rows.
Proof. reflexivity. Qed.
Global Opaque recs8 recs16 recs24 num8 num16 num24 tr46_data mapdata_len data_pieces idna_rows nfcqc_rows.

Lemma ok_fast_gen : forall T ps len e r, pieces_ok ps = true -> t_mapdata T = concat ps -> zlen (t_mapdata T) = len -> len < 128 * 200 ->
  entry_ok (t_flags T) (fun off => skip_pieces 200 off ps) len e r = true ->
  rd (t_flags T) (m_idx e) = Ok (flag_of (r_status r)) /\
  get_map_data_in T e = Ok (r_map r) /\ m_n e = zlen (r_map r).
Proof.
  intros T ps len e r Hp Ht Hl Hlen K.
  unfold entry_ok in K. rewrite !andb_true_iff in K. destruct K as ((((K1 & K2) & K3) & K4) & K5).
  zb. destruct (rd _ _) as [f| | |]; try discriminate. zb. subst f. split; [reflexivity|].
  rewrite skip_pieces_spec in K5; [|exact Hp|rewrite <- Ht; lia|lia].
  unfold get_map_data_in. destruct (_ <? m_off e) eqn:E; zb; [lia|]. rewrite Ht.
  destruct (stream_cps _ _) as [l| | |]; try discriminate. apply zs_eqb_eq in K5. subst l. split; auto.
Qed.

Lemma ok_fast_ok : forall e r, ok_fast e r = true ->
  rd (t_flags tr46_data) (m_idx e) = Ok (flag_of (r_status r)) /\
  get_map_data_in tr46_data e = Ok (r_map r) /\ m_n e = zlen (r_map r).
Proof.
  intros e r K. exact (ok_fast_gen tr46_data data_pieces mapdata_len e r data_pieces_ok data_pieces_eq
    (proj1 (Z.eqb_eq _ _) lend) mapdata_len_small K).
Qed.

(** The tables agree with the data file on every code point. *)
Lemma idna_map_spec : forall c, 0 <= c <= 0x10ffff ->
  exists r m, idna_row c = Some r /\ get_idna_map c = Ok (m, 0) /\
    rd (t_flags tr46_data) (m_idx m) = Ok (flag_of (r_status r)) /\
    get_map_data m = Ok (r_map r) /\ m_n m = zlen (r_map r).
Proof.
  intros c Hc. rewrite idna_row_find. unfold get_idna_map, get_map_data.
  pose proof (map_inside tr46_data idna_rows recs8 recs16 recs24 num8 num16 num24 ok_fast (Z.to_nat 20000)
    recs8_eq recs16_eq recs24_eq (proj1 (eqb_len _ _ _ _ len8)) (proj1 (eqb_len _ _ _ _ len16)) (proj1 (eqb_len _ _ _ _ len24))
    (proj2 (eqb_len _ _ _ _ len8)) (proj2 (eqb_len _ _ _ _ len16)) (proj2 (eqb_len _ _ _ _ len24))
    (proj1 (and2 _ _ sorted8)) (proj1 (and2 _ _ sorted16)) (proj1 (and2 _ _ sorted24))
    (forallb_le _ _ (proj2 (and2 _ _ sorted8))) (forallb_le _ _ (proj2 (and2 _ _ sorted16)))
    (forallb_le _ _ (proj2 (and2 _ _ sorted24))) rows_sorted walk_all ok_fast_ok c Hc) as X.
  exact X.
Qed.

Lemma idna_map_outside : forall c, 0x10ffff < c -> get_idna_map c = Ok (IdnaMap 0 0 0 0 0, -1).
Proof.
  intros c Hc. unfold get_idna_map.
  pose proof (map_outside tr46_data recs8 recs16 recs24 num8 num16 num24
    recs8_eq recs16_eq recs24_eq (proj1 (eqb_len _ _ _ _ len8)) (proj1 (eqb_len _ _ _ _ len16)) (proj1 (eqb_len _ _ _ _ len24))
    (proj2 (eqb_len _ _ _ _ len8)) (proj2 (eqb_len _ _ _ _ len16)) (proj2 (eqb_len _ _ _ _ len24))
    (proj1 (and2 _ _ sorted8)) (proj1 (and2 _ _ sorted16)) (proj1 (and2 _ _ sorted24))
    (forallb_le _ _ (proj2 (and2 _ _ sorted8))) (forallb_le _ _ (proj2 (and2 _ _ sorted16)))
    (forallb_le _ _ (proj2 (and2 _ _ sorted24))) c Hc) as X.
  exact X.
Qed.

(** The quick-check lookup agrees with the data file. *)
Lemma nfcqc_spec : forall c, exists o, get_nfcqc_map c = Ok o /\
  match nfc_qc c with
  | None => o = None
  | Some k => exists q, o = Some q /\ nq_check q = check_of k
  end.
Proof.
  intros c. unfold get_nfcqc_map. pose proof nfcqc_complete as K. apply andb_true_iff in K. destruct K as (K & S).
  apply andb_true_iff in K. destruct K as (K1 & K2). rewrite forallb_forall in K1, K2.
  destruct (qc_spec tr46_data nfcqc_rows) with (c := c) as (o & G & H).
  - intros r I. apply K1 in I. apply existsb_exists in I. destruct I as (m & I & X). exists m. split; [exact I|].
    unfold nq_ok in X. rewrite !andb_true_iff, !Z.eqb_eq in X. tauto.
  - intros m I. apply K2 in I. apply existsb_exists in I. destruct I as (r & I & X). exists r. split; [exact I|].
    unfold nq_ok in X. rewrite !andb_true_iff, !Z.eqb_eq in X. tauto.
  - exact S.
  - exists o. split; [exact G|]. unfold nfc_qc. unfold covers in H. unfold in_range.
    destruct (find _ nfcqc_rows); exact H.
Qed.
