(** The property lookup agrees with the CSV file. *)
From Verif Require Import Base PunyBase DataTypes DataCsv Bsearch BsearchProofs Tables SpecTables.

Lemma gendata_in : forall rows e, In e (gendata rows) <->
  exists r, In r rows /\ p_prop r <> UNASSIGNED /\ e = IdnaEntry (p_lo r) (p_hi r) (p_prop r).
Proof.
  induction rows as [|r rows IH]; intros e; cbn [gendata].
  - split; [intros []|intros (r & [] & _)].
  - split.
    + destruct (p_prop r) eqn:E;
        try (intros [<-|I]; [exists r; split; [left; reflexivity|]; split; [congruence|]; rewrite E; reflexivity|
             apply IH in I; destruct I as (r' & I & J); exists r'; split; [right; exact I|exact J]]).
      intros I. apply IH in I; destruct I as (r' & I & J); exists r'; split; [right; exact I|exact J].
    + intros (r' & [<-|I] & J & K).
      * subst e. destruct (p_prop r) eqn:E; try (left; reflexivity). congruence.
      * assert (I' : In e (gendata rows)) by (apply IH; eauto).
        destruct (p_prop r); try (right; exact I'). exact I'.
Qed.

Lemma gendata_sorted : forall rows b, sorted_from p_lo p_hi b rows = true ->
  sorted_from ie_start ie_end b (gendata rows) = true.
Proof.
  induction rows as [|r rows IH]; intros b H; [reflexivity|]. cbn [sorted_from] in H.
  rewrite !andb_true_iff in H. destruct H as ((H1 & H2) & H3). apply IH in H3. cbn [gendata].
  destruct (p_prop r); cbn [sorted_from ie_start ie_end]; rewrite ?H1, ?H2, ?H3; try reflexivity.
  apply (sorted_from_weaken _ _ _ (p_hi r + 1)); auto. zb. lia.
Qed.

Lemma elem_ok : forall {A} (t : list A) i x, nth_error t (Z.to_nat i) = Some x -> 0 <= i -> elem t i = Ok x.
Proof.
  intros A t i x E Hi. unfold elem. destruct (i <? 0) eqn:E1; zb; [lia|]. rewrite E. reflexivity.
Qed.

(** For every sorted CSV file, the generated table and the lookup agree with it. *)
Lemma property_in_spec : forall rows b c, sorted_from p_lo p_hi b rows = true ->
  property_in (gendata rows) c =
  Ok (match find (covers p_lo p_hi c) rows with Some r => p_prop r | None => UNASSIGNED end).
Proof.
  intros rows b c S. pose proof (gendata_sorted rows b S) as S'.
  unfold property_in.
  set (cmp := fun i => _).
  pose proof (bsearch_intervals ie_start ie_end (gendata rows) b c cmp S') as B.
  assert (Hc : forall i x, nth_error (gendata rows) (Z.to_nat i) = Some x -> 0 <= i ->
    cmp i = Ok (if c <? ie_start x then -1 else if ie_end x <? c then 1 else 0)).
  { intros i x E Hi. unfold cmp. rewrite (elem_ok _ _ _ E Hi). reflexivity. }
  specialize (B Hc).
  destruct (find (covers p_lo p_hi c) rows) as [r|] eqn:F.
  - apply find_some in F. destruct F as (I & C). apply covers_iff in C.
    destruct (find (covers ie_start ie_end c) (gendata rows)) as [e|] eqn:F2.
    + destruct B as (i & Hi & B & E). rewrite B. cbn [bind]. rewrite (elem_ok _ _ _ E Hi). cbn [bind].
      apply find_some in F2. destruct F2 as (I2 & C2). apply covers_iff in C2. apply gendata_in in I2.
      destruct I2 as (r' & I2 & N & ->). cbn [ie_start ie_end ie_state] in *.
      pose proof (find_unique p_lo p_hi rows b c r S I C) as U1.
      pose proof (find_unique p_lo p_hi rows b c r' S I2 C2) as U2.
      assert (r = r') by congruence. now subst r'.
    + rewrite B. cbn [bind]. destruct (p_prop r) eqn:P; try reflexivity; exfalso;
      (assert (G : In (IdnaEntry (p_lo r) (p_hi r) (p_prop r)) (gendata rows)) by (apply gendata_in; exists r; split; [exact I|]; split; [congruence|reflexivity]);
       pose proof (find_none _ _ F2 _ G) as X; unfold covers in X; cbn [ie_start ie_end] in X;
       apply andb_false_iff in X; destruct X; zb; lia).
  - destruct (find (covers ie_start ie_end c) (gendata rows)) as [e|] eqn:F2; [|rewrite B; reflexivity].
    apply find_some in F2. destruct F2 as (I2 & C2). apply covers_iff in C2. apply gendata_in in I2.
    destruct I2 as (r' & I2 & N & ->). cbn [ie_start ie_end ie_state] in *.
    pose proof (find_none _ _ F _ I2) as X. apply covers_iff in C2. congruence.
Qed.

Lemma csv_sorted : sorted_from p_lo p_hi 0 csv_rows = true.
Proof. vm_compute. reflexivity. Qed.
Lemma idna_table_gendata : idna_table = gendata csv_rows.
Proof. vm_compute. reflexivity. Qed.

Lemma property_spec : forall c, property c = Ok (csv_property c).
Proof.
  intros c. unfold property. rewrite idna_table_gendata, (property_in_spec csv_rows 0 c csv_sorted).
  reflexivity.
Qed.

(** Every code point has a row. *)
Fixpoint covers_all {A} (lo hi : A -> Z) (b : Z) (l : list A) (top : Z) : bool :=
  match l with
  | [] => b =? top
  | a :: r => (lo a =? b) && (lo a <=? hi a) && covers_all lo hi (hi a + 1) r top
  end.
Lemma covers_all_spec : forall {A} (lo hi : A -> Z) l b top c, covers_all lo hi b l top = true ->
  b <= c < top -> exists a, find (covers lo hi c) l = Some a.
Proof.
  induction l as [|a l IH]; intros b top c H Hc; cbn [covers_all] in H; [zb; lia|].
  rewrite !andb_true_iff in H. destruct H as ((H1 & H2) & H3). zb. cbn [find].
  destruct (covers lo hi c a) eqn:E; [eauto|]. apply (IH (hi a + 1) top c H3).
  destruct (Z.le_gt_cases c (hi a)) as [L|L]; [|lia].
  assert (X : covers lo hi c a = true) by (apply covers_iff; lia). congruence.
Qed.
Lemma csv_covers_all : covers_all p_lo p_hi 0 csv_rows 1114112 = true.
Proof. vm_compute. reflexivity. Qed.
Lemma csv_total : forall c, 0 <= c <= 1114111 ->
  exists r, In r csv_rows /\ p_lo r <= c <= p_hi r /\ csv_property c = p_prop r.
Proof.
  intros c H. destruct (covers_all_spec p_lo p_hi csv_rows 0 1114112 c csv_covers_all ltac:(lia)) as (r & F).
  exists r. unfold csv_property. unfold in_range. unfold covers in F. rewrite F.
  apply find_some in F. destruct F as (I & C). rewrite andb_true_iff, !Z.leb_le in C. auto.
Qed.

(** The row found is the only one: any row whose range contains [c] gives its property. *)
Lemma csv_row_property : forall r c, In r csv_rows -> p_lo r <= c <= p_hi r -> csv_property c = p_prop r.
Proof.
  intros r c I C. unfold csv_property.
  pose proof (find_unique p_lo p_hi csv_rows 0 c r csv_sorted I C) as U. unfold covers in U. unfold in_range.
  now rewrite U.
Qed.
Lemma csv_outside : forall c, ~ 0 <= c <= 1114111 -> csv_property c = UNASSIGNED.
Proof.
  intros c H. unfold csv_property. destruct (find _ csv_rows) as [r|] eqn:F; [|reflexivity].
  apply find_some in F. destruct F as (I & C). unfold in_range in C. rewrite andb_true_iff, !Z.leb_le in C.
  assert (A : forallb (fun r => (0 <=? p_lo r) && (p_hi r <=? 1114111)) csv_rows = true) by (vm_compute; reflexivity).
  rewrite forallb_forall in A. apply A in I. rewrite andb_true_iff, !Z.leb_le in I. lia.
Qed.
