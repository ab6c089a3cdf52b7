(** The C library's bsearch on sorted tables, whichever it is. *)
From Coq Require Import String.
From Verif Require Import Base PunyBase Bsearch BsearchProofs CLang CTables SpecCPuny SpecCTables.
Local Open Scope list_scope.
Local Open Scope Z_scope.

Lemma mono_partitioned : forall k g, (forall i j, 0 <= i < j -> j < Z.of_nat k -> (g i < 0 -> g j < 0) /\ (0 < g j -> 0 < g i)) -> partitioned g (Z.of_nat k).
Proof.
  induction k as [|k IH]; intros g M.
  - exists 0, 0. repeat split; intros; lia.
  - destruct (IH g) as (a & b & AB & BN & P & Q & R). { intros i j Hi Hj. apply M; lia. }
    replace (Z.of_nat (S k)) with (Z.of_nat k + 1) in * by lia. set (n := Z.of_nat k) in *.
    destruct (Z_lt_le_dec (g n) 0) as [L|G].
    + exists a, b. repeat split; auto; try lia. intros i Hi. destruct (Z.eq_dec i n) as [->|N]; [exact L|apply R; lia].
    + assert (BN' : b = n). { destruct (Z.eq_dec b n) as [E|NE]; [exact E|]. specialize (R b ltac:(lia)). destruct (M b n ltac:(lia) ltac:(lia)) as (M1 & _). specialize (M1 R). lia. }
      subst b. destruct (Z.eq_dec (g n) 0) as [E|NE].
      * exists a, (n + 1). repeat split; auto; try lia. intros i Hi. destruct (Z.eq_dec i n) as [->|N]; [exact E|apply Q; lia].
      * exists (n + 1), (n + 1). repeat split; try lia. intros i Hi. destruct (Z.eq_dec i n) as [->|N]; [lia|]. destruct (M i n ltac:(lia) ltac:(lia)) as (_ & M2). apply M2. lia.
Qed.
(** On a table of disjoint intervals in order. *)
Section Intervals.
  Context {A : Type} (lo hi : A -> Z).
  Lemma bs_intervals : forall bs (l : list A) b c cmp, c11_bsearch bs -> sorted_from lo hi b l = true ->
    (forall i x, nth_error l (Z.to_nat i) = Some x -> 0 <= i < zlen l -> cmp i = Val (if c <? lo x then -1 else if hi x <? c then 1 else 0)) ->
    match find (covers lo hi c) l with
    | Some x => exists i, 0 <= i < zlen l /\ bs cmp (zlen l) = Val i /\ nth_error l (Z.to_nat i) = Some x
    | None => bs cmp (zlen l) = Val (-1)
    end.
  Proof.
    intros bs l b c cmp C S H.
    set (g := fun i => match nth_error l (Z.to_nat i) with Some x => if c <? lo x then -1 else if hi x <? c then 1 else 0 | None => 0 end).
    assert (N : forall i, 0 <= i < zlen l -> exists x, nth_error l (Z.to_nat i) = Some x).
    { intros i Hi. destruct (nth_error l (Z.to_nat i)) eqn:E; eauto. apply nth_error_None in E. unfold zlen in Hi. lia. }
    assert (G : forall i, 0 <= i < zlen l -> cmp i = Val (g i)) by (intros i Hi; destruct (N i Hi) as (x & E); rewrite (H i x E Hi); unfold g; rewrite E; reflexivity).
    assert (M : partitioned g (zlen l)).
    { apply (mono_partitioned (length l)). change (Z.of_nat (length l)) with (zlen l). intros i j Hi Hj. destruct (N i ltac:(lia)) as (x & Ex). destruct (N j ltac:(lia)) as (y & Ey).
      pose proof (sorted_nth lo hi l b (Z.to_nat i) (Z.to_nat j) x y S ltac:(lia) Ex Ey) as O1. pose proof (sorted_in lo hi l b x S (nth_error_In _ _ Ex)) as O2. pose proof (sorted_in lo hi l b y S (nth_error_In _ _ Ey)) as O3.
      unfold g. rewrite Ex, Ey. destruct (c <? lo x) eqn:Q1, (hi x <? c) eqn:Q2, (c <? lo y) eqn:Q3, (hi y <? c) eqn:Q4; zb; split; intros; lia. }
    assert (Z1 : forall i x, nth_error l (Z.to_nat i) = Some x -> (g i = 0 <-> covers lo hi c x = true)).
    { intros i x E. unfold g. rewrite E, covers_iff. destruct (c <? lo x) eqn:Q1, (hi x <? c) eqn:Q2; zb; split; intros; lia. }
    destruct (C cmp g (zlen l) (Zle_0_nat (length l)) G M) as [(i & Hi & Gi & B)|(NZ & B)].
    - destruct (N i Hi) as (x & E). pose proof (proj1 (Z1 i x E) Gi) as CV. apply covers_iff in CV. rewrite (find_unique lo hi l b c x S (nth_error_In _ _ E) CV). eauto.
    - destruct (find (covers lo hi c) l) as [x|] eqn:F; [|exact B]. apply find_some in F. destruct F as (I & CV). apply In_nth_error in I. destruct I as (k & E).
      assert (K : 0 <= Z.of_nat k < zlen l) by (pose proof (proj1 (nth_error_Some l k) ltac:(congruence)); unfold zlen; lia). elim (NZ _ K). apply (Z1 (Z.of_nat k) x); [rewrite Nat2Z.id; exact E|exact CV].
  Qed.
End Intervals.

(** The one of glibc, as in Bsearch.v. *)
Definition of_out (o : out (option Z)) : res Z := match o with Ok (Some i) => Val i | Ok None => Val (-1) | NoFuel => Fuel | _ => UB end.
Definition glibc_bsearch : bsearch_fun := fun cmp n => of_out (bsearch (fun i => match cmp i with Val z => Ok z | UB => Undef | Fuel => NoFuel end) n).
Lemma glibc_c11 : c11_bsearch glibc_bsearch.
Proof.
  intros cmp g n H G (a & b & AB & BN & P & Q & R). unfold glibc_bsearch. destruct (bsearch_spec (fun i => match cmp i with Val z => Ok z | UB => Undef | Fuel => NoFuel end) g n) as [(i & Hi & Z0 & ->)|(NZ & ->)].
  - intros i Hi. rewrite (G i Hi). reflexivity.
  - intros i j Hi Hj. split; intros L.
    + assert (b <= i). { destruct (Z_lt_le_dec i b); [|assumption]. destruct (Z_lt_le_dec i a); [specialize (P i); lia|specialize (Q i); lia]. } apply R. lia.
    + assert (j < a). { destruct (Z_lt_le_dec j a); [assumption|]. destruct (Z_lt_le_dec j b); [specialize (Q j); lia|specialize (R j); lia]. } apply P. lia.
  - exact H.
  - left. eauto.
  - right. auto.
Qed.
(** One that looks at the elements from the front, and one that may not be called with
    an array that is not in order. *)
Fixpoint scan (k : nat) (cmp : Z -> res Z) (i : Z) : res Z :=
  match k with O => Val (-1) | S k => rbind (cmp i) (fun r => if r =? 0 then Val i else scan k cmp (i + 1)) end.
Definition linear_bsearch : bsearch_fun := fun cmp n => scan (Z.to_nat n) cmp 0.
Lemma linear_c11 : c11_bsearch linear_bsearch.
Proof.
  intros cmp g n H G _. unfold linear_bsearch.
  assert (K : forall k i, 0 <= i -> i + Z.of_nat k = n -> (exists j, i <= j < n /\ g j = 0 /\ scan k cmp i = Val j) \/ ((forall j, i <= j < n -> g j <> 0) /\ scan k cmp i = Val (-1))).
  { induction k as [|k IH]; intros i Hi E; cbn [scan]; [right; split; [intros; lia|reflexivity]|]. rewrite (G i ltac:(lia)). cbn [rbind]. destruct (g i =? 0) eqn:Q; zb.
    - left. exists i. repeat split; auto; lia.
    - destruct (IH (i + 1) ltac:(lia) ltac:(lia)) as [(j & Hj & Z0 & S)|(NZ & S)]; [left; exists j; repeat split; auto; lia|].
      right. split; [|exact S]. intros j Hj. destruct (Z.eq_dec j i) as [->|]; [exact Q|apply NZ; lia]. }
  destruct (K (Z.to_nat n) 0 ltac:(lia) ltac:(lia)) as [X|X]; [left|right]; exact X.
Qed.
