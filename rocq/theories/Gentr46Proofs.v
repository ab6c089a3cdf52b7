(** gentr46map, for any data files: if it reports nothing, the tables it writes
    say what the files say. *)
From Coq Require Import Sorting.Permutation Sorting.Sorted.
From Verif Require Import Base PunyBase DataTypes Bsearch BsearchProofs Tables TablesProofs Gentr46 Tr46Map SpecGen.

(** * Bits *)
Lemma lor_add : forall a b k, 0 <= k -> 0 <= b < 2 ^ k -> Z.lor (a * 2 ^ k) b = a * 2 ^ k + b.
Proof.
  intros a b k K B.
  assert (E : Z.land (a * 2 ^ k) b = 0).
  { apply Z.bits_inj'. intros n N. rewrite Z.land_spec, Z.bits_0. destruct (Z.lt_ge_cases n k) as [L|L].
    - rewrite Z.mul_pow2_bits_low by lia. reflexivity.
    - assert (Z.testbit b n = false); [|now rewrite H, andb_false_r].
      destruct (Z.eq_dec b 0) as [->|Nz]; [apply Z.bits_0|]. apply Z.bits_above_log2; [lia|].
      apply Z.log2_lt_pow2; [lia|]. apply Z.lt_le_trans with (2 ^ k); [lia|]. apply Z.pow_le_mono_r; lia. }
  rewrite <- Z.lxor_lor, Z.add_nocarry_lxor by exact E. reflexivity.
Qed.
Lemma land7f : forall x, Z.land x 0x7f = x mod 128.
Proof. intros x. change 0x7f with (Z.ones 7). rewrite Z.land_ones by lia. reflexivity. Qed.
Lemma landff : forall x, Z.land x 0xff = x mod 256.
Proof. intros x. change 0xff with (Z.ones 8). rewrite Z.land_ones by lia. reflexivity. Qed.
Lemma lor80 : forall a, 0 <= a < 128 -> Z.lor 0x80 a = 128 + a.
Proof. intros a A. exact (lor_add 1 a 7 ltac:(lia) A). Qed.
Lemma land80 : forall a, 0 <= a < 128 -> Z.land a 0x80 = 0 /\ Z.land (128 + a) 0x80 = 128.
Proof.
  intros a A.
  assert (K : forallb (fun n => let a := Z.of_nat n in (Z.land a 0x80 =? 0) && (Z.land (128 + a) 0x80 =? 128)) (seq 0 128) = true) by (vm_compute; reflexivity).
  rewrite forallb_forall in K. specialize (K (Z.to_nat a) ltac:(apply in_seq; lia)). cbv zeta in K. rewrite Z2Nat.id in K by lia.
  apply andb_true_iff in K. rewrite !Z.eqb_eq in K. exact K.
Qed.

(** * The stream of code points *)
Definition digit7 (d : Z) : Prop := 0 <= d < 128.
Definition value7 (v : Z) (ds : list Z) : Z := fold_left (fun v d => v * 128 + d) ds v.

Lemma cp_stream_shape : forall c, cp32 c -> exists hs l, cp_stream c = map (Z.add 128) hs ++ [l] /\ Forall digit7 hs /\ digit7 l /\
  (length hs <= 4)%nat /\ value7 0 hs * 128 + l = c.
Proof.
  intros c C. unfold cp32 in C. unfold cp_stream. rewrite !Z.shiftr_div_pow2, !land7f by lia.
  assert (D : forall x, digit7 (x mod 128)) by (intros x; apply Z.mod_pos_bound; lia).
  change (2 ^ 7) with 128. change (2 ^ 14) with (128 * 128). change (2 ^ 21) with (128 * (128 * 128)). change (2 ^ 28) with (128 * (128 * (128 * 128))).
  rewrite <- !Z.div_div by lia. rewrite !lor80 by apply D.
  pose proof (Z.div_mod c 128 ltac:(lia)) as M1. pose proof (Z.mod_pos_bound c 128 ltac:(lia)) as B1.
  set (q1 := c / 128) in *. pose proof (Z.div_mod q1 128 ltac:(lia)) as M2. pose proof (Z.mod_pos_bound q1 128 ltac:(lia)) as B2.
  set (q2 := q1 / 128) in *. pose proof (Z.div_mod q2 128 ltac:(lia)) as M3. pose proof (Z.mod_pos_bound q2 128 ltac:(lia)) as B3.
  set (q3 := q2 / 128) in *. pose proof (Z.div_mod q3 128 ltac:(lia)) as M4. pose proof (Z.mod_pos_bound q3 128 ltac:(lia)) as B4.
  set (q4 := q3 / 128) in *. pose proof (Z.div_mod q4 128 ltac:(lia)) as M5. pose proof (Z.mod_pos_bound q4 128 ltac:(lia)) as B5.
  assert (G : forall x, 0 <= x < 128 -> x mod 128 = x) by (intros; apply Z.mod_small; lia).
  destruct (c <=? 127) eqn:E1; zb; [|destruct (c <=? 16383) eqn:E2; zb; [|destruct (c <=? 2097151) eqn:E3; zb; [|destruct (c <=? 268435455) eqn:E4; zb]]].
  - exists [], (c mod 128). split; [reflexivity|]. split; [auto 7|]. split; [apply D|]. split; [cbn; lia|]. unfold value7. cbn [fold_left]. rewrite (G c); lia.
  - exists [q1 mod 128], (c mod 128). split; [reflexivity|]. split; [auto 7|]. split; [apply D|]. split; [cbn; lia|]. unfold value7. cbn [fold_left]. rewrite (G q1); lia.
  - exists [q2 mod 128; q1 mod 128], (c mod 128). split; [reflexivity|]. split; [auto 7|]. split; [apply D|]. split; [cbn; lia|]. unfold value7. cbn [fold_left]. rewrite (G q2); lia.
  - exists [q3 mod 128; q2 mod 128; q1 mod 128], (c mod 128). split; [reflexivity|]. split; [auto 7|]. split; [apply D|]. split; [cbn; lia|]. unfold value7. cbn [fold_left]. rewrite (G q3); lia.
  - exists [q4 mod 128; q3 mod 128; q2 mod 128; q1 mod 128], (c mod 128). split; [reflexivity|]. split; [auto 7|]. split; [apply D|]. split; [cbn; lia|]. unfold value7. cbn [fold_left]. rewrite (G q4); lia.
Qed.

Lemma value7_mono : forall ds v, Forall digit7 ds -> 0 <= v -> v <= value7 v ds.
Proof.
  induction ds as [|d ds IH]; intros v F V; [cbn; lia|]. inversion F as [|? ? D F']; subst. unfold digit7 in D.
  change (value7 v (d :: ds)) with (value7 (v * 128 + d) ds). specialize (IH (v * 128 + d) F' ltac:(lia)). lia.
Qed.
Lemma stream_cp_spec : forall hs l r v, Forall digit7 hs -> digit7 l -> 0 <= v -> value7 v hs * 128 + l < 2 ^ 32 ->
  stream_cp (map (Z.add 128) hs ++ l :: r) v = Ok (value7 v hs * 128 + l, r).
Proof.
  assert (S : forall v d, 0 <= v -> digit7 d -> v * 128 + d < 2 ^ 32 -> u32 (Z.lor (u32 (Z.shiftl v 7)) d) = v * 128 + d).
  { intros v d V D B. unfold digit7 in D. rewrite Z.shiftl_mul_pow2 by lia. change (2 ^ 7) with 128. unfold u32. unfold two32 in *.
    rewrite (Z.mod_small (v * 128)) by lia. replace (Z.lor (v * 128) d) with (v * 128 + d) by (symmetry; apply (lor_add v d 7); lia).
    apply Z.mod_small. lia. }
  induction hs as [|h hs IH]; intros l r v F L V B; cbn [map app stream_cp].
  - rewrite land7f, Z.mod_small by exact L. cbn [value7 fold_left] in *. rewrite S by auto.
    rewrite (proj1 (land80 l L)). reflexivity.
  - inversion F as [|? ? H F']; subst. change (value7 v (h :: hs)) with (value7 (v * 128 + h) hs) in *.
    replace (Z.land (128 + h) 127) with h.
    2: { rewrite land7f. replace (128 + h) with (h + 1 * 128) by lia. rewrite Z.mod_add by lia. symmetry. apply Z.mod_small. exact H. }
    rewrite (proj2 (land80 h H)). cbn [Z.eqb]. unfold digit7 in H, L. pose proof (value7_mono hs (v * 128 + h) F' ltac:(lia)).
    rewrite S by (unfold digit7; lia). apply IH; auto; lia.
Qed.

Definition stream (m : list Z) : list Z := flat_map cp_stream m.
Lemma stream_cps_spec : forall m r, Forall cp32 m -> stream_cps (length m) (stream m ++ r) = Ok m.
Proof.
  induction m as [|c m IH]; intros r F; [reflexivity|]. inversion F as [|? ? C F']; subst. cbn [length stream_cps stream flat_map].
  destruct (cp_stream_shape c C) as (hs & l & E & H & L & _ & V). rewrite E, <- !app_assoc. cbn [app].
  rewrite stream_cp_spec; auto; [|lia|unfold cp32 in C; lia]. rewrite V. cbn [bind]. fold (stream m). rewrite IH by exact F'. reflexivity.
Qed.
Lemma cp_stream_pos : forall c, cp32 c -> 1 <= zlen (cp_stream c) <= 5.
Proof.
  intros c C. destruct (cp_stream_shape c C) as (hs & l & E & _ & _ & N & _). rewrite E. unfold zlen. rewrite app_length, map_length. cbn [length]. lia.
Qed.
Lemma stream_len : forall m, Forall cp32 m -> zlen m <= zlen (stream m) <= 5 * zlen m.
Proof.
  induction 1 as [|c m C F IH]; [change (stream []) with (@nil Z); rewrite zlen_nil; lia|]. cbn [stream flat_map]. fold (stream m). rewrite zlen_app, !zlen_cons. pose proof (cp_stream_pos c C). lia.
Qed.

Lemma prefix_head : forall hs l fuel r n, Forall digit7 hs -> digit7 l -> (length hs < fuel)%nat -> 0 < n ->
  cp_stream_prefix fuel (map (Z.add 128) hs ++ l :: r) n = map (Z.add 128) hs ++ l :: cp_stream_prefix (fuel - Datatypes.S (length hs)) r (n - 1).
Proof.
  induction hs as [|h hs IH]; intros l fuel r n F L Fu N; (destruct fuel as [|fuel]; [cbn [length] in Fu; lia|]); cbn [map app cp_stream_prefix length].
  - destruct (n =? 0) eqn:E; zb; [lia|]. rewrite (proj1 (land80 l L)). cbn [Z.eqb]. rewrite Nat.sub_succ, Nat.sub_0_r. reflexivity.
  - inversion F as [|? ? H F']; subst. destruct (n =? 0) eqn:E; zb; [lia|]. rewrite (proj2 (land80 h H)). cbn [Z.eqb].
    rewrite IH; auto. cbn [length] in Fu. lia.
Qed.
Lemma prefix_spec : forall m r fuel, Forall cp32 m -> (length (stream m) < fuel)%nat -> cp_stream_prefix fuel (stream m ++ r) (zlen m) = stream m.
Proof.
  induction m as [|c m IH]; intros r fuel F Fu.
  - destruct fuel as [|fuel]; [cbn in Fu; lia|]. cbn. destruct r; reflexivity.
  - inversion F as [|? ? C F']; subst. cbn [stream flat_map] in *. fold (stream m) in *.
    destruct (cp_stream_shape c C) as (hs & l & E & H & L & _ & V). rewrite E in *. rewrite <- !app_assoc. cbn [app].
    rewrite !app_length, map_length in Fu. cbn [length] in Fu.
    rewrite prefix_head; auto; [|lia|rewrite zlen_cons; pose proof (zlen_nonneg _ m); lia].
    rewrite zlen_cons. replace (1 + zlen m - 1) with (zlen m) by lia. rewrite IH; auto. lia.
Qed.

Lemma prefix_eq_spec : forall n h, prefix_eq n h = true -> exists t, h = n ++ t.
Proof.
  induction n as [|a n IH]; intros h H; [exists h; reflexivity|]. destruct h as [|b h]; cbn [prefix_eq] in H; [discriminate|].
  destruct (a =? b) eqn:E; [|discriminate]. zb. subst b. destruct (IH h H) as (t & ->). exists t. reflexivity.
Qed.
Lemma memmem_spec : forall hay needle q, u8_memmem hay needle = Some q -> exists pre t, hay = pre ++ q /\ q = needle ++ t.
Proof.
  induction hay as [|x hay IH]; intros needle q; cbn [u8_memmem].
  - destruct (prefix_eq needle []) eqn:E; [|discriminate]. intros H. injection H as <-. apply prefix_eq_spec in E. destruct E as (t & E). exists [], t. split; auto.
  - destruct (prefix_eq needle (x :: hay)) eqn:E.
    + intros H. injection H as <-. apply prefix_eq_spec in E. destruct E as (t & E). exists [], t. split; auto.
    + intros H. destruct (IH _ _ H) as (pre & t & -> & Q). exists (x :: pre), t. split; auto.
Qed.

(** * Sorting *)
Section SortProofs.
  Context {A : Type} (le : A -> A -> bool) (lo hi : A -> Z).
  Definition apart (a b : A) : Prop := hi a < lo b \/ hi b < lo a.
  Definition before (a b : A) : Prop := hi a < lo b.
  Hypothesis le_spec : forall a b, lo a <= hi a -> lo b <= hi b -> apart a b -> (le a b = true -> hi a < lo b) /\ (le a b = false -> hi b < lo a).

  Lemma merge_perm : forall l1 l2, Permutation (merge le l1 l2) (l1 ++ l2).
  Proof.
    induction l1 as [|a l1 IH1]; [intros [|b l2]; apply Permutation_refl|].
    induction l2 as [|b l2 IH2]; [cbn [merge]; rewrite app_nil_r; apply Permutation_refl|].
    cbn [merge]. destruct (le a b).
    - cbn [app]. apply perm_skip. apply IH1.
    - eapply Permutation_trans; [apply perm_skip; exact IH2|]. apply (Permutation_middle (a :: l1) l2 b).
  Qed.
  Lemma merge_sorted : forall l1 l2, Forall (fun a => lo a <= hi a) l1 -> Forall (fun a => lo a <= hi a) l2 ->
    (forall a b, In a l1 -> In b l2 -> apart a b) -> StronglySorted before l1 -> StronglySorted before l2 ->
    StronglySorted before (merge le l1 l2).
  Proof.
    induction l1 as [|a l1 IH1]; [intros [|b l2]; auto|].
    induction l2 as [|b l2 IH2]; [auto|]. intros F1 F2 X S1 S2. cbn [merge].
    pose proof (Forall_inv F1) as Na. pose proof (Forall_inv_tail F1) as F1'. pose proof (Forall_inv F2) as Nb. pose proof (Forall_inv_tail F2) as F2'.
    apply StronglySorted_inv in S1 as S1'. destruct S1' as (S1' & B1). apply StronglySorted_inv in S2 as S2'. destruct S2' as (S2' & B2).
    rewrite Forall_forall in B1, B2. destruct (le_spec a b Na Nb (X a b (or_introl eq_refl) (or_introl eq_refl))) as (Y & N).
    destruct (le a b) eqn:E.
    - constructor.
      + apply IH1; auto. intros; apply X; cbn; auto.
      + apply Forall_forall. intros x I. apply (Permutation_in _ (merge_perm _ _)) in I. apply in_app_iff in I.
        destruct I as [I|[<-|I]]; [auto|exact (Y eq_refl)|]. apply B2 in I. unfold before in *. specialize (Y eq_refl). lia.
    - constructor.
      + apply IH2; auto. intros; apply X; cbn; auto.
      + apply Forall_forall. intros x I. apply (Permutation_in _ (merge_perm (a :: l1) l2)) in I. apply in_app_iff in I.
        destruct I as [[<-|I]|I]; [exact (N eq_refl)| |auto]. apply B1 in I. unfold before in *. specialize (N eq_refl). lia.
  Qed.

  Definition run (o : option (list A)) : list A := match o with Some l => l | None => [] end.
  Definition runs (st : list (option (list A))) : list A := flat_map run st.
  Lemma push_perm : forall st l, Permutation (runs (push_run le st l)) (runs st ++ l).
  Proof.
    induction st as [|[l'|] st IH]; intros l; cbn [push_run runs flat_map run].
    - unfold runs. cbn. rewrite app_nil_r. apply Permutation_refl.
    - cbn [app]. fold (runs (push_run le st (merge le l' l))). fold (runs st).
      eapply Permutation_trans; [apply IH|]. eapply Permutation_trans; [apply Permutation_app_head; apply merge_perm|].
      rewrite app_assoc. apply Permutation_app_tail. apply Permutation_app_comm.
    - cbn [app]. apply Permutation_app_comm.
  Qed.
  Lemma stack_perm : forall st, Permutation (merge_stack le st) (runs st).
  Proof.
    induction st as [|[l|] st IH]; cbn [merge_stack runs flat_map run]; [apply Permutation_refl| |exact IH].
    eapply Permutation_trans; [apply merge_perm|]. eapply Permutation_trans; [apply Permutation_app_comm|]. apply Permutation_app_head. exact IH.
  Qed.
  Lemma sort_perm : forall l st, Permutation (sort_runs le st l) (runs st ++ l).
  Proof.
    induction l as [|a l IH]; intros st; cbn [sort_runs]; [rewrite app_nil_r; apply stack_perm|].
    eapply Permutation_trans; [apply IH|]. change (a :: l) with ([a] ++ l). rewrite app_assoc. apply Permutation_app_tail. apply push_perm.
  Qed.
  Lemma qsort_perm : forall l, Permutation (qsort le l) l.
  Proof. intros l. apply (sort_perm l []). Qed.

  (** [good]: non-empty intervals, pairwise apart. *)
  Definition good (l : list A) : Prop := Forall (fun a => lo a <= hi a) l /\ ForallOrdPairs apart l.
  Lemma good_app : forall l1 l2, good (l1 ++ l2) <-> good l1 /\ good l2 /\ (forall a b, In a l1 -> In b l2 -> apart a b).
  Proof.
    unfold good. induction l1 as [|a l1 IH]; intros l2; cbn [app].
    - split; [intros H; repeat split; try apply H; auto; [constructor|intros ? ? []]|tauto].
    - specialize (IH l2). split.
      + intros (F & P). apply Forall_cons_iff in F. destruct F as (Na & F). inversion P as [|? ? Pa P']; subst.
        destruct (proj1 IH (conj F P')) as ((F1 & P1) & G2 & X). apply Forall_app in Pa. destruct Pa as (Pa1 & Pa2).
        split; [split; constructor; auto|]. split; [exact G2|]. intros x y [<-|I] J; [|auto]. rewrite Forall_forall in Pa2. auto.
      + intros ((F1 & P1) & G2 & X). apply Forall_cons_iff in F1. destruct F1 as (Na & F1). inversion P1 as [|? ? Pa P']; subst.
        destruct (proj2 IH) as (F & P). { split; [split; auto|]. split; [exact G2|]. intros; apply X; cbn; auto. }
        split; constructor; auto. apply Forall_app. split; [exact Pa|]. apply Forall_forall. intros y J. apply X; cbn; auto.
  Qed.
  Lemma good_perm : forall l l', Permutation l l' -> good l -> good l'.
  Proof.
    induction 1 as [|x l l' P IH|x y l|l l' l'' P1 IH1 P2 IH2]; auto.
    - change (x :: l) with ([x] ++ l). change (x :: l') with ([x] ++ l'). rewrite !good_app. intros (G1 & G2 & X).
      split; [exact G1|]. split; [auto|]. intros a b I J. apply X; auto. apply (Permutation_in _ (Permutation_sym P)). exact J.
    - change (y :: x :: l) with ([y] ++ [x] ++ l). change (x :: y :: l) with ([x] ++ [y] ++ l). rewrite !good_app.
      intros (G1 & (G2 & G3 & X1) & X2). split; [exact G2|]. split; [split; [exact G1|split; [exact G3|]]|].
      + intros a b I J. apply X2; auto. apply in_app_iff. auto.
      + intros a b [<-|[]] J. apply in_app_iff in J. destruct J as [[<-|[]]|J]; [|apply X1; cbn; auto].
        assert (apart y x) by (apply X2; cbn; auto). unfold apart in *. lia.
  Qed.

  Lemma push_sorted : forall st l, good (runs st ++ l) -> Forall (fun o => StronglySorted before (run o)) st -> StronglySorted before l ->
    Forall (fun o => StronglySorted before (run o)) (push_run le st l).
  Proof.
    induction st as [|[l'|] st IH]; intros l G F S; cbn [push_run].
    - constructor; [exact S|constructor].
    - pose proof (Forall_inv F) as S'. cbn [run] in S'. apply Forall_inv_tail in F. cbn [runs flat_map run] in G. fold (runs st) in G.
      rewrite <- app_assoc in G. apply (good_perm _ (runs st ++ l' ++ l)) in G.
      2: { rewrite !app_assoc. apply Permutation_app_tail. apply Permutation_app_comm. }
      constructor; [constructor|]. apply IH; auto.
      + apply (good_perm _ _ (Permutation_app_head (runs st) (Permutation_sym (merge_perm l' l)))). exact G.
      + apply good_app in G. destruct G as (_ & G & _). apply good_app in G. destruct G as (G1 & G2 & X).
        apply merge_sorted; auto; [apply G1|apply G2].
    - apply Forall_inv_tail in F. constructor; auto.
  Qed.
  Lemma stack_sorted : forall st, good (runs st) -> Forall (fun o => StronglySorted before (run o)) st -> StronglySorted before (merge_stack le st).
  Proof.
    induction st as [|[l|] st IH]; intros G F; cbn [merge_stack]; [constructor| |].
    - pose proof (Forall_inv F) as S. apply Forall_inv_tail in F. cbn [runs flat_map run] in G. fold (runs st) in G.
      apply good_app in G. destruct G as (G1 & G2 & X). apply merge_sorted.
      + apply (good_perm _ _ (Permutation_sym (stack_perm st)) G2).
      + apply G1.
      + intros a b I J. apply (Permutation_in _ (stack_perm st)) in I. specialize (X b a J I). unfold apart in *. lia.
      + apply IH; auto.
      + exact S.
    - apply Forall_inv_tail in F. apply IH; auto.
  Qed.
  Lemma sort_sorted : forall l st, good (runs st ++ l) -> Forall (fun o => StronglySorted before (run o)) st -> StronglySorted before (sort_runs le st l).
  Proof.
    induction l as [|a l IH]; intros st G F; cbn [sort_runs].
    - rewrite app_nil_r in G. now apply stack_sorted.
    - change (a :: l) with ([a] ++ l) in G. rewrite app_assoc in G. apply IH.
      + apply (good_perm _ _ (Permutation_app_tail l (Permutation_sym (push_perm st [a])))). exact G.
      + apply push_sorted; auto; [|constructor; constructor]. apply good_app in G. apply G.
  Qed.
  Lemma sorted_sorted_from : forall l b, Forall (fun a => lo a <= hi a) l -> Forall (fun a => b <= lo a) l -> StronglySorted before l -> sorted_from lo hi b l = true.
  Proof.
    induction l as [|a l IH]; intros b F B S; [reflexivity|]. cbn [sorted_from]. apply StronglySorted_inv in S. destruct S as (S & X).
    rewrite !andb_true_iff, !Z.leb_le. split; [split; [exact (Forall_inv B)|exact (Forall_inv F)]|].
    apply IH; [exact (Forall_inv_tail F)| |exact S]. eapply Forall_impl; [|exact X]. intros x Hx. unfold before in Hx. lia.
  Qed.
  Lemma qsort_sorted : forall l b, good l -> Forall (fun a => b <= lo a) l -> sorted_from lo hi b (qsort le l) = true.
  Proof.
    intros l b G B. pose proof (good_perm _ _ (Permutation_sym (qsort_perm l)) G) as G'. apply sorted_sorted_from.
    - apply G'.
    - eapply Permutation_Forall; [apply Permutation_sym, qsort_perm|exact B].
    - apply (sort_sorted l []); [exact G|constructor].
  Qed.
  Lemma sorted_from_good : forall l b, sorted_from lo hi b l = true -> good l.
  Proof.
    induction l as [|a l IH]; intros b S; [split; constructor|]. cbn [sorted_from] in S. rewrite !andb_true_iff, !Z.leb_le in S.
    destruct S as ((S1 & S2) & S3). destruct (IH _ S3) as (F & P). split; constructor; auto.
    apply Forall_forall. intros x I. apply (sorted_in _ _ _ _ _ S3) in I. left. lia.
  Qed.
End SortProofs.
