(** bsearch finds a matching element of a sorted array iff there is one. *)
From Verif Require Import Base PunyBase Bsearch.

Lemma bsearch_loop_spec : forall fuel cmp g lo hi,
  (forall i, lo <= i < hi -> cmp i = Ok (g i)) ->
  (forall i j, lo <= i < j -> j < hi -> (g i < 0 -> g j < 0) /\ (0 < g j -> 0 < g i)) ->
  lo <= hi -> hi - lo < Z.of_nat fuel ->
  (exists i, lo <= i < hi /\ g i = 0 /\ bsearch_loop fuel cmp lo hi = Ok (Some i)) \/
  ((forall i, lo <= i < hi -> g i <> 0) /\ bsearch_loop fuel cmp lo hi = Ok None).
Proof.
  induction fuel as [|fuel IH]; intros cmp g lo hi Hc Hm Hle Hf; [lia|].
  cbn [bsearch_loop]. destruct (lo <? hi) eqn:E; zb.
  2: { right. split; [intros i Hi; lia|reflexivity]. }
  assert (Hmid : lo <= (lo + hi) / 2 < hi).
  { split; [apply Z.div_le_lower_bound; lia|apply Z.div_lt_upper_bound; lia]. }
  set (mid := (lo + hi) / 2) in *. rewrite (Hc mid Hmid). cbn [bind].
  destruct (g mid <? 0) eqn:E1; zb.
  - destruct (IH cmp g lo mid) as [(i & Hi & G & B)|(N & B)]; try lia.
    { intros i Hi. apply Hc. lia. }
    { intros i j Hij Hj. apply Hm; lia. }
    + left. exists i. split; [lia|auto].
    + right. split; [|exact B]. intros i Hi. destruct (Z.lt_ge_cases i mid) as [L|L]; [apply N; lia|].
      destruct (Z.eq_dec i mid) as [->|Ne]; [lia|]. destruct (Hm mid i) as [M _]; [lia|lia|]. specialize (M E1). lia.
  - destruct (0 <? g mid) eqn:E2; zb.
    + destruct (IH cmp g (mid + 1) hi) as [(i & Hi & G & B)|(N & B)]; try lia.
      { intros i Hi. apply Hc. lia. }
      { intros i j Hij Hj. apply Hm; lia. }
      * left. exists i. split; [lia|auto].
      * right. split; [|exact B]. intros i Hi. destruct (Z.lt_ge_cases mid i) as [L|L]; [apply N; lia|].
        destruct (Z.eq_dec i mid) as [->|Ne]; [lia|]. destruct (Hm i mid) as [_ M]; [lia|lia|]. specialize (M E2). lia.
    + left. exists mid. split; [lia|]. split; [lia|reflexivity].
Qed.

Lemma bsearch_spec : forall cmp g n,
  (forall i, 0 <= i < n -> cmp i = Ok (g i)) ->
  (forall i j, 0 <= i < j -> j < n -> (g i < 0 -> g j < 0) /\ (0 < g j -> 0 < g i)) ->
  0 <= n ->
  (exists i, 0 <= i < n /\ g i = 0 /\ bsearch cmp n = Ok (Some i)) \/
  ((forall i, 0 <= i < n -> g i <> 0) /\ bsearch cmp n = Ok None).
Proof. intros cmp g n Hc Hm Hn. apply bsearch_loop_spec; auto; lia. Qed.

(** Sorted arrays of disjoint intervals. *)
Section Intervals.
  Context {A : Type} (lo hi : A -> Z).

  Definition covers (c : Z) (a : A) : bool := (lo a <=? c) && (c <=? hi a).

  Fixpoint sorted_from (b : Z) (l : list A) : bool :=
    match l with
    | [] => true
    | a :: r => (b <=? lo a) && (lo a <=? hi a) && sorted_from (hi a + 1) r
    end.

  Lemma sorted_from_weaken : forall l b b', b' <= b -> sorted_from b l = true -> sorted_from b' l = true.
  Proof.
    intros [|a l] b b' Hb H; [reflexivity|]. cbn [sorted_from] in *.
    rewrite !andb_true_iff, !Z.leb_le in *. intuition lia.
  Qed.

  Lemma sorted_nth : forall l b i j x y, sorted_from b l = true -> (i < j)%nat ->
    nth_error l i = Some x -> nth_error l j = Some y -> hi x < lo y.
  Proof.
    assert (G : forall l b j y, sorted_from b l = true -> nth_error l j = Some y -> b <= lo y /\ lo y <= hi y).
    { induction l as [|a l IH]; intros b j y H E; [destruct j; discriminate|]. cbn [sorted_from] in H.
      rewrite !andb_true_iff, !Z.leb_le in H. destruct H as ((H1 & H2) & H3). destruct j as [|j]; cbn [nth_error] in E.
      - inversion E; subst. lia.
      - apply (IH _ _ _ H3) in E. lia. }
    induction l as [|a l IH]; intros b i j x y H Hij Ei Ej; [destruct i; discriminate|].
    cbn [sorted_from] in H. rewrite !andb_true_iff in H. destruct H as ((H1 & H2) & H3).
    destruct j as [|j]; [lia|]. cbn [nth_error] in Ej. destruct i as [|i]; cbn [nth_error] in Ei.
    - inversion Ei; subst. apply (G _ _ _ _ H3) in Ej. lia.
    - apply (IH _ i j _ _ H3); auto. lia.
  Qed.

  Lemma covers_iff : forall c a, covers c a = true <-> lo a <= c <= hi a.
  Proof. intros c a. unfold covers. rewrite andb_true_iff, !Z.leb_le. tauto. Qed.

  Lemma sorted_in : forall l b a, sorted_from b l = true -> In a l -> b <= lo a <= hi a.
  Proof.
    induction l as [|x l IH]; intros b a H I; [destruct I|]. cbn [sorted_from] in H.
    rewrite !andb_true_iff, !Z.leb_le in H. destruct H as ((H1 & H2) & H3). destruct I as [->|I]; [lia|].
    apply (IH _ _ H3) in I. lia.
  Qed.

  (** In a sorted array the element covering [c] is unique. *)
  Lemma find_unique : forall l b c a, sorted_from b l = true -> In a l -> lo a <= c <= hi a ->
    find (covers c) l = Some a.
  Proof.
    induction l as [|x l IH]; intros b c a H I C; [destruct I|]. cbn [sorted_from] in H.
    rewrite !andb_true_iff, !Z.leb_le in H. destruct H as ((H1 & H2) & H3). cbn [find].
    destruct (covers c x) eqn:E.
    - destruct I as [->|I]; [reflexivity|]. apply covers_iff in E. apply (sorted_in _ _ _ H3) in I. lia.
    - destruct I as [->|I]; [apply covers_iff in C; congruence|]. now apply (IH (hi x + 1)).
  Qed.

  Lemma bsearch_intervals : forall (l : list A) b c cmp,
    sorted_from b l = true ->
    (forall i x, nth_error l (Z.to_nat i) = Some x -> 0 <= i ->
       cmp i = Ok (if c <? lo x then -1 else if hi x <? c then 1 else 0)) ->
    match find (covers c) l with
    | Some x => exists i, 0 <= i /\ bsearch cmp (zlen l) = Ok (Some i) /\ nth_error l (Z.to_nat i) = Some x
    | None => bsearch cmp (zlen l) = Ok None
    end.
  Proof.
    intros l b c cmp S H.
    set (g := fun i => match nth_error l (Z.to_nat i) with
                       | Some x => if c <? lo x then -1 else if hi x <? c then 1 else 0
                       | None => 0 end).
    assert (N : forall i, 0 <= i < zlen l -> exists x, nth_error l (Z.to_nat i) = Some x).
    { intros i Hi. destruct (nth_error l (Z.to_nat i)) eqn:E; eauto. apply nth_error_None in E. unfold zlen in Hi. lia. }
    destruct (bsearch_spec cmp g (zlen l)) as [(i & Hi & G & B)|(Nn & B)].
    - intros i Hi. destruct (N i Hi) as (x & E). rewrite (H i x E) by lia. unfold g. rewrite E. reflexivity.
    - intros i j Hij Hj. destruct (N i ltac:(lia)) as (x & Ex). destruct (N j ltac:(lia)) as (y & Ey).
      unfold g. rewrite Ex, Ey. pose proof (sorted_nth l b (Z.to_nat i) (Z.to_nat j) x y S ltac:(lia) Ex Ey).
      pose proof (sorted_in l b x S (nth_error_In _ _ Ex)). pose proof (sorted_in l b y S (nth_error_In _ _ Ey)).
      destruct (c <? lo x) eqn:E1; destruct (hi x <? c) eqn:E2; destruct (c <? lo y) eqn:E3; destruct (hi y <? c) eqn:E4; zb; lia.
    - unfold zlen. lia.
    - destruct (N i Hi) as (x & E). unfold g in G. rewrite E in G.
      assert (C : lo x <= c <= hi x).
      { destruct (c <? lo x) eqn:E1; [lia|]. destruct (hi x <? c) eqn:E2; [lia|]. zb. lia. }
      rewrite (find_unique l b c x S (nth_error_In _ _ E) C). exists i. split; [lia|auto].
    - destruct (find (covers c) l) as [x|] eqn:F; [|exact B]. exfalso.
      apply find_some in F. destruct F as (I & C). apply covers_iff in C.
      apply In_nth_error in I. destruct I as (n & E).
      assert (Hn : (n < length l)%nat) by (apply nth_error_Some; congruence).
      apply (Nn (Z.of_nat n)); [unfold zlen; lia|]. unfold g. rewrite Nat2Z.id, E.
      destruct (c <? lo x) eqn:E1; [zb; lia|]. destruct (hi x <? c) eqn:E2; [zb; lia|]. reflexivity.
  Qed.
End Intervals.
