(** gentr46map.c: the printed tables, read back by tr46map.c. *)
From Coq Require Import Sorting.Permutation.
From Verif Require Import Base PunyBase DataTypes Bsearch BsearchProofs Tables TablesProofs Gentr46 Tr46Map Tr46Valid SpecGen Gentr46Proofs Gentr46Read.

Lemma byte_eq : forall x n, 0 <= n -> byte x n = x / 2 ^ n mod 256.
Proof. intros x n N. unfold byte. rewrite landff, Z.shiftr_div_pow2 by exact N. reflexivity. Qed.
Lemma byte_range : forall x n, 0 <= n -> 0 <= byte x n < 256.
Proof. intros x n N. rewrite byte_eq by exact N. apply Z.mod_pos_bound. lia. Qed.
Lemma bytes8 : forall x, 0 <= x < 2 ^ 8 -> byte x 0 = x.
Proof. intros x X. rewrite byte_eq by lia. change (2 ^ 0) with 1. rewrite Z.div_1_r. apply Z.mod_small. exact X. Qed.
Lemma bytes16 : forall x, 0 <= x < 2 ^ 16 -> Z.lor (Z.shiftl (byte x 8) 8) (byte x 0) = x.
Proof.
  intros x X. rewrite Z.shiftl_mul_pow2 by lia. rewrite lor_add; [|lia|apply byte_range; lia]. rewrite !byte_eq by lia.
  change (2 ^ 0) with 1. change (2 ^ 8) with 256. rewrite Z.div_1_r. change (2 ^ 16) with 65536 in X.
  pose proof (Z.div_mod x 256 ltac:(lia)). pose proof (Z.mod_pos_bound x 256 ltac:(lia)).
  rewrite (Z.mod_small (x / 256)); [lia|]. split; [apply Z.div_pos; lia|apply Z.div_lt_upper_bound; lia].
Qed.
Lemma bytes24 : forall x, 0 <= x < 2 ^ 24 -> Z.lor (Z.lor (Z.shiftl (byte x 16) 16) (Z.shiftl (byte x 8) 8)) (byte x 0) = x.
Proof.
  intros x X. rewrite !Z.shiftl_mul_pow2 by lia. change (2 ^ 24) with 16777216 in X.
  assert (E : Z.lor (byte x 16 * 2 ^ 16) (byte x 8 * 2 ^ 8) = (byte x 16 * 256 + byte x 8) * 2 ^ 8).
  { pose proof (byte_range x 8 ltac:(lia)). rewrite lor_add; [|lia|change (2 ^ 16) with 65536; change (2 ^ 8) with 256; lia].
    change (2 ^ 16) with 65536; change (2 ^ 8) with 256; lia. }
  rewrite E, lor_add; [|lia|apply byte_range; lia]. rewrite !byte_eq by lia.
  change (2 ^ 0) with 1. change (2 ^ 8) with 256. change (2 ^ 16) with (256 * 256). rewrite Z.div_1_r, <- Z.div_div by lia.
  pose proof (Z.div_mod x 256 ltac:(lia)). pose proof (Z.mod_pos_bound x 256 ltac:(lia)).
  pose proof (Z.div_mod (x / 256) 256 ltac:(lia)). pose proof (Z.mod_pos_bound (x / 256) 256 ltac:(lia)).
  rewrite (Z.mod_small (x / 256 / 256)); [lia|]. rewrite Z.div_div by lia. split; [apply Z.div_pos; lia|apply Z.div_lt_upper_bound; lia].
Qed.

Definition pack (n off idx : Z) : Z := Z.lor (Z.shiftl (Z.lor (Z.shiftl n 14) off) 3) idx.
Lemma pack_eq : forall n off idx, 0 <= off < 16384 -> 0 <= idx < 8 -> pack n off idx = (n * 16384 + off) * 8 + idx.
Proof.
  intros n off idx O I. unfold pack. rewrite !Z.shiftl_mul_pow2 by lia. rewrite !lor_add by (try lia; assumption). reflexivity.
Qed.
Lemma unpack : forall n off idx, 0 <= n <= 20 -> 0 <= off < 16384 -> 0 <= idx < 8 ->
  0 <= pack n off idx < 2 ^ 24 /\ Z.land (Z.shiftr (pack n off idx) 17) 0x1f = n /\ Z.land (Z.shiftr (pack n off idx) 3) 0x3fff = off /\ Z.land (pack n off idx) 7 = idx.
Proof.
  intros n off idx N O I. rewrite pack_eq by assumption. set (v := (n * 16384 + off) * 8 + idx). change 0x1f with (Z.ones 5). change 0x3fff with (Z.ones 14).
  change 7 with (Z.ones 3). rewrite !Z.land_ones, !Z.shiftr_div_pow2 by lia.
  assert (V8 : v / 2 ^ 3 = n * 16384 + off) by (change (2 ^ 3) with 8; unfold v; rewrite Z.div_add_l by lia; rewrite Z.div_small by lia; lia).
  assert (V17 : v / 2 ^ 17 = n).
  { change (2 ^ 17) with (2 ^ 3 * 2 ^ 14). rewrite <- Z.div_div by lia. rewrite V8. change (2 ^ 14) with 16384.
    rewrite Z.div_add_l by lia. rewrite Z.div_small by lia. lia. }
  rewrite V8, V17. split; [change (2 ^ 24) with 16777216; unfold v; lia|].
  split; [apply Z.mod_small; change (2 ^ 5) with 32; lia|].
  change (2 ^ 14) with 16384. change (2 ^ 3) with 8. unfold v.
  rewrite !(Z.add_comm (_ * _)), !Z.mod_add by lia. split; apply Z.mod_small; lia.
Qed.

(** * One record *)
Definition chunk : Type := gmap * Z * Z.
Definition enc (max : Z) (k : chunk) : list Z := let '(m, a, b) := k in print_entry max m a b.
Definition dec (k : chunk) : idnamap := let '(m, a, b) := k in IdnaMap a (b - a) (gn m) (goff m) (gidx m).
Definition entry_fits (m : gmap) : Prop := 0 <= gn m <= 20 /\ 0 <= goff m < 16384 /\ 0 <= gidx m < 8.
Definition chunk_fits (max : Z) (k : chunk) : Prop :=
  let '(m, a, b) := k in entry_fits m /\ 0 <= a <= b /\ b - a <= 0xffff /\ b <= max.

Lemma fill_value_spec : forall a r m t, entry_fits m ->
  fill_value a r ([byte (pack (gn m) (goff m) (gidx m)) 16; byte (pack (gn m) (goff m) (gidx m)) 8; byte (pack (gn m) (goff m) (gidx m)) 0] ++ t) =
  Ok (IdnaMap a r (gn m) (goff m) (gidx m)).
Proof.
  intros a r m t (N & O & I). cbn [app fill_value]. destruct (unpack _ _ _ N O I) as (V & U1 & U2 & U3).
  rewrite bytes24 by exact V. rewrite U1, U2, U3. reflexivity.
Qed.
Lemma print_entry_eq : forall max m a b, print_entry max m a b =
  (if max =? 0xff then [byte a 0; byte (b - a) 0]
   else if max =? 0xffff then [byte a 8; byte a 0; byte (b - a) 8; byte (b - a) 0]
   else [byte a 16; byte a 8; byte a 0; byte (b - a) 8; byte (b - a) 0])
  ++ [byte (pack (gn m) (goff m) (gidx m)) 16; byte (pack (gn m) (goff m) (gidx m)) 8; byte (pack (gn m) (goff m) (gidx m)) 0].
Proof. reflexivity. Qed.
Lemma fill8 : forall k t, chunk_fits 0xff k -> fill_map 0 (enc 0xff k ++ t) = Ok (dec k) /\ length (enc 0xff k) = 5%nat.
Proof.
  intros [[m a] b] t (F & A & R & X). unfold enc. rewrite print_entry_eq. change (0xff =? 0xff) with true. cbn [app length].
  split; [|reflexivity]. unfold fill_map. change (0 <=? 0xff) with true. rewrite !bytes8 by lia.
  exact (fill_value_spec a (b - a) m t F).
Qed.
Lemma fill16 : forall k t, chunk_fits 0xffff k -> fill_map 0x100 (enc 0xffff k ++ t) = Ok (dec k) /\ length (enc 0xffff k) = 7%nat.
Proof.
  intros [[m a] b] t (F & A & R & X). unfold enc. rewrite print_entry_eq. change (0xffff =? 0xff) with false. change (0xffff =? 0xffff) with true. cbn [app length].
  split; [|reflexivity]. unfold fill_map. change (0x100 <=? 0xff) with false. change (0x100 <=? 0xffff) with true. rewrite !bytes16 by lia.
  exact (fill_value_spec a (b - a) m t F).
Qed.
Lemma fill24 : forall k t, chunk_fits 0xffffff k -> fill_map 0x10000 (enc 0xffffff k ++ t) = Ok (dec k) /\ length (enc 0xffffff k) = 8%nat.
Proof.
  intros [[m a] b] t (F & A & R & X). unfold enc. rewrite print_entry_eq. change (0xffffff =? 0xff) with false. change (0xffffff =? 0xffff) with false. cbn [app length].
  split; [|reflexivity]. unfold fill_map. change (0x10000 <=? 0xff) with false. change (0x10000 <=? 0xffff) with false. rewrite bytes24, bytes16 by lia.
  exact (fill_value_spec a (b - a) m t F).
Qed.

(** * A table *)
Lemma recs_enc : forall c size enc (ks : list chunk),
  (forall k t, In k ks -> fill_map c (enc k ++ t) = Ok (dec k) /\ length (enc k) = size) ->
  recs (length ks) c size (flat_map enc ks) = map dec ks /\ zlen (flat_map enc ks) = Z.of_nat (length ks) * Z.of_nat size.
Proof.
  intros c size en ks. induction ks as [|k ks IH]; intros H; [split; reflexivity|]. cbn [length recs flat_map map].
  destruct (H k (flat_map en ks) (or_introl eq_refl)) as (H1 & H2). rewrite H1, zlen_app.
  destruct IH as (I1 & I2); [intros; apply H; cbn; auto|]. split.
  - f_equal. rewrite skipn_app, <- H2, skipn_all, Nat.sub_diag. cbn [skipn app]. rewrite H2. exact I1.
  - rewrite I2. unfold zlen. rewrite H2. lia.
Qed.

Fixpoint chunks (n : nat) (m : gmap) (a : Z) : list chunk :=
  match n with
  | O => [(m, a, g2 m)]
  | S n' => (m, a, a + 0xffff) :: chunks n' m (a + 0xffff + 1)
  end.
Lemma print_chunks_eq : forall n max m a, print_chunks n max m a = flat_map (enc max) (chunks n m a).
Proof. induction n as [|n IH]; intros max m a; cbn [print_chunks chunks flat_map]; [symmetry; apply app_nil_r|]. now rewrite IH. Qed.
Definition all_chunks (m : gmap) : list chunk := chunks (Z.to_nat ((g2 m - g1 m) / 0x10000)) m (g1 m).
Definition window (min max : Z) (e : gmap) : bool := (min <=? g1 e) && (g1 e <=? max).
Lemma print_map_eq : forall min max es b, sorted_from g1 g2 b es = true ->
  print_map min max es = flat_map (enc max) (flat_map all_chunks (filter (window min max) es)).
Proof.
  intros min max. induction es as [|e es IH]; intros b S; [reflexivity|]. cbn [sorted_from print_map filter] in *.
  rewrite !andb_true_iff, !Z.leb_le in S. destruct S as ((S1 & S2) & S3). unfold window at 1.
  destruct (g1 e <? min) eqn:E1; zb.
  - replace (min <=? g1 e) with false by (symmetry; apply Z.leb_gt; lia). exact (IH _ S3).
  - replace (min <=? g1 e) with true by (symmetry; apply Z.leb_le; lia). destruct (max <? g1 e) eqn:E2; zb.
    + replace (g1 e <=? max) with false by (symmetry; apply Z.leb_gt; lia). cbn [andb].
      replace (filter (window min max) es) with (@nil gmap); [reflexivity|]. symmetry.
      assert (K : forall x, In x es -> window min max x = false).
      { intros x I. apply (sorted_in _ _ _ _ _ S3) in I. unfold window. apply andb_false_iff. right. apply Z.leb_gt. lia. }
      clear - K. induction es as [|x es IH]; [reflexivity|]. cbn [filter]. rewrite K by (left; reflexivity). apply IH. intros; apply K; cbn; auto.
    + replace (g1 e <=? max) with true by (symmetry; apply Z.leb_le; lia). cbn [andb flat_map]. rewrite flat_map_app, print_chunks_eq.
      f_equal. exact (IH _ S3).
Qed.

Lemma chunks_in : forall n m a k, a + Z.of_nat n * 0x10000 <= g2 m < a + (Z.of_nat n + 1) * 0x10000 -> In k (chunks n m a) ->
  exists x y, k = (m, x, y) /\ a <= x <= y /\ y <= g2 m /\ y - x <= 0xffff.
Proof.
  induction n as [|n IH]; intros m a k B I; cbn [chunks] in I.
  - destruct I as [<-|[]]. exists a, (g2 m). repeat split; lia.
  - destruct I as [<-|I].
    + exists a, (a + 0xffff). repeat split; lia.
    + apply IH in I; [|lia]. destruct I as (x & y & -> & X). exists x, y. repeat split; lia.
Qed.
Lemma chunks_cover : forall n m a c, a + Z.of_nat n * 0x10000 <= g2 m < a + (Z.of_nat n + 1) * 0x10000 -> a <= c <= g2 m ->
  exists x y, In (m, x, y) (chunks n m a) /\ x <= c <= y.
Proof.
  induction n as [|n IH]; intros m a c B C; cbn [chunks].
  - exists a, (g2 m). split; [left; reflexivity|exact C].
  - destruct (Z.le_gt_cases c (a + 0xffff)) as [L|L].
    + exists a, (a + 0xffff). split; [left; reflexivity|lia].
    + destruct (IH m (a + 0xffff + 1) c) as (x & y & I & X); [lia|lia|]. exists x, y. split; [right; exact I|exact X].
Qed.
Definition k_lo (k : chunk) : Z := snd (fst k).
Definition k_hi (k : chunk) : Z := snd k.
Lemma chunks_sorted : forall n m a, a + Z.of_nat n * 0x10000 <= g2 m < a + (Z.of_nat n + 1) * 0x10000 ->
  forall rest, sorted_from k_lo k_hi (g2 m + 1) rest = true -> sorted_from k_lo k_hi a (chunks n m a ++ rest) = true.
Proof.
  induction n as [|n IH]; intros m a B rest R; cbn [chunks app sorted_from].
  - change (k_lo (m, a, g2 m)) with a. change (k_hi (m, a, g2 m)) with (g2 m).
    rewrite !andb_true_iff, !Z.leb_le. repeat split; [lia|lia|exact R].
  - change (k_lo (m, a, a + 0xffff)) with a. change (k_hi (m, a, a + 0xffff)) with (a + 0xffff).
    rewrite !andb_true_iff, !Z.leb_le. repeat split; [lia|lia|]. apply IH; [lia|exact R].
Qed.
Lemma count_chunks : forall a b, a <= b -> let n := Z.to_nat ((b - a) / 0x10000) in a + Z.of_nat n * 0x10000 <= b < a + (Z.of_nat n + 1) * 0x10000.
Proof.
  intros a b L n. subst n. pose proof (Z.div_mod (b - a) 0x10000 ltac:(lia)). pose proof (Z.mod_pos_bound (b - a) 0x10000 ltac:(lia)).
  rewrite Z2Nat.id by (apply Z.div_pos; lia). lia.
Qed.
Lemma table_sorted : forall es b, sorted_from g1 g2 b es = true -> sorted_from k_lo k_hi b (flat_map all_chunks es) = true.
Proof.
  induction es as [|e es IH]; intros b S; [reflexivity|]. cbn [sorted_from flat_map] in *.
  rewrite !andb_true_iff, !Z.leb_le in S. destruct S as ((S1 & S2) & S3).
  apply sorted_from_weaken with (g1 e); [exact S1|]. apply chunks_sorted; [apply count_chunks; exact S2|]. auto.
Qed.
Lemma filter_sorted : forall f es b, sorted_from g1 g2 b es = true -> sorted_from g1 g2 b (filter f es) = true.
Proof.
  intros f. induction es as [|e es IH]; intros b S; [reflexivity|]. cbn [sorted_from filter] in *.
  rewrite !andb_true_iff in S. destruct S as ((S1 & S2) & S3). destruct (f e).
  - cbn [sorted_from]. rewrite !andb_true_iff. repeat split; auto.
  - apply sorted_from_weaken with (g2 e + 1); [zb; lia|]. auto.
Qed.
Lemma dec_sorted : forall ks b, sorted_from k_lo k_hi b ks = true -> sorted_from m_cp1 m_hi b (map dec ks) = true.
Proof.
  induction ks as [|[[m x] y] ks IH]; intros b; [reflexivity|]. cbn [sorted_from map].
  change (k_lo (m, x, y)) with x. change (k_hi (m, x, y)) with y. change (m_cp1 (dec (m, x, y))) with x.
  replace (m_hi (dec (m, x, y))) with y by (unfold m_hi, dec; cbn [m_cp1 m_range]; lia).
  rewrite !andb_true_iff. intros (S1 & S2). split; [exact S1|]. apply IH. exact S2.
Qed.
Lemma sorted_above : forall es b b', sorted_from g1 g2 b es = true -> (forall e, In e es -> b' <= g1 e) -> sorted_from g1 g2 b' es = true.
Proof.
  intros [|e es] b b' S H; [reflexivity|]. cbn [sorted_from] in *. rewrite !andb_true_iff, !Z.leb_le in *.
  destruct S as ((S1 & S2) & S3). repeat split; auto. apply H. left. reflexivity.
Qed.

(** * All three tables *)
Section Tables.
  Variables (rows : list row) (es : list gmap) (combos data : list Z) (q : list nfcqc).
  Hypothesis E : entries_ok rows es combos data.
  Definition T := Tr46Tables combos (print_map 0 0xff es) (print_map 0x100 0xffff es) (print_map 0x10000 0xffffff es) data q.
  Definition ks (min max : Z) : list chunk := flat_map all_chunks (filter (window min max) es).

  Lemma ks_in : forall min max k, In k (ks min max) -> exists e x y, k = (e, x, y) /\ In e es /\ min <= g1 e <= max /\ g1 e <= x <= y /\ y <= g2 e /\ y - x <= 0xffff.
  Proof.
    intros min max k I. unfold ks in I. apply in_flat_map in I. destruct I as (e & I & J). apply filter_In in I. destruct I as (I & W).
    unfold window in W. zb. pose proof (sorted_in _ _ _ _ _ (eo_sorted _ _ _ _ E) I). apply chunks_in in J; [|apply count_chunks; lia].
    destruct J as (x & y & -> & X). exists e, x, y. repeat split; auto; lia.
  Qed.
  Lemma ks_cover : forall min max e c, In e es -> min <= g1 e <= max -> inside c e -> exists x y, In (e, x, y) (ks min max) /\ x <= c <= y.
  Proof.
    intros min max e c I W C. unfold inside in C. destruct (chunks_cover (Z.to_nat ((g2 e - g1 e) / 0x10000)) e (g1 e) c) as (x & y & J & X); [apply count_chunks; lia|exact C|].
    exists x, y. split; [|exact X]. apply in_flat_map. exists e. split; [|exact J]. apply filter_In. split; [exact I|]. unfold window. rewrite andb_true_iff, !Z.leb_le. exact W.
  Qed.
  Lemma fits : forall e, In e es -> entry_fits e.
  Proof.
    intros e I. destruct (eo_repr _ _ _ _ E e I) as (st & m & R & M). pose proof (eo_idx _ _ _ _ E e I). unfold entry_fits.
    pose proof (re_n _ _ _ _ R). pose proof (re_off _ _ _ _ R). pose proof (proj2 M). pose proof (zlen_nonneg _ m). lia.
  Qed.
  Lemma top8 : forall e, In e es -> g1 e <= 0xff -> g2 e <= 0xff.
  Proof. intros e I L. pose proof (eo_split _ _ _ _ E e 0x100 I ltac:(cbn; auto)). lia. Qed.
  Lemma top16 : forall e, In e es -> g1 e <= 0xffff -> g2 e <= 0xffff.
  Proof. intros e I L. pose proof (eo_split _ _ _ _ E e 0x10000 I ltac:(cbn; auto)). lia. Qed.
  Lemma ks_sorted : forall min max, sorted_from m_cp1 m_hi min (map dec (ks min max)) = true.
  Proof.
    intros min max. apply dec_sorted, table_sorted. apply sorted_above with 0; [apply filter_sorted; exact (eo_sorted _ _ _ _ E)|].
    intros e I. apply filter_In in I. destruct I as (_ & W). unfold window in W. zb. assumption.
  Qed.
  Lemma low : forall e, In e es -> 0 <= g1 e <= g2 e.
  Proof. intros e I. exact (sorted_in _ _ _ _ _ (eo_sorted _ _ _ _ E) I). Qed.
  Lemma fits8 : forall k, In k (ks 0 0xff) -> chunk_fits 0xff k.
  Proof. intros k I. apply ks_in in I. destruct I as (e & x & y & -> & I & W & X). pose proof (top8 e I). pose proof (low e I). split; [now apply fits|]. lia. Qed.
  Lemma fits16 : forall k, In k (ks 0x100 0xffff) -> chunk_fits 0xffff k.
  Proof. intros k I. apply ks_in in I. destruct I as (e & x & y & -> & I & W & X). pose proof (top16 e I). pose proof (low e I). split; [now apply fits|]. lia. Qed.
  Lemma fits24 : forall k, In k (ks 0x10000 0xffffff) -> chunk_fits 0xffffff k.
  Proof. intros k I. apply ks_in in I. destruct I as (e & x & y & -> & I & W & X). pose proof (eo_hi _ _ _ _ E e I). pose proof (low e I). split; [now apply fits|]. lia. Qed.

  Definition R8 := map dec (ks 0 0xff).
  Definition R16 := map dec (ks 0x100 0xffff).
  Definition R24 := map dec (ks 0x10000 0xffffff).
  Lemma tab8 : R8 = recs (length (ks 0 0xff)) 0 5 (t_map8 T) /\ zlen (t_map8 T) = Z.of_nat (length (ks 0 0xff)) * 5.
  Proof.
    cbn [t_map8 T]. rewrite (print_map_eq _ _ _ 0 (eo_sorted _ _ _ _ E)). destruct (recs_enc 0 5 (enc 0xff) (ks 0 0xff)) as (A & B).
    { intros k t I. apply fill8. apply fits8. exact I. } split; [symmetry; exact A|exact B].
  Qed.
  Lemma tab16 : R16 = recs (length (ks 0x100 0xffff)) 0x100 7 (t_map16 T) /\ zlen (t_map16 T) = Z.of_nat (length (ks 0x100 0xffff)) * 7.
  Proof.
    cbn [t_map16 T]. rewrite (print_map_eq _ _ _ 0 (eo_sorted _ _ _ _ E)). destruct (recs_enc 0x100 7 (enc 0xffff) (ks 0x100 0xffff)) as (A & B).
    { intros k t I. apply fill16. apply fits16. exact I. } split; [symmetry; exact A|exact B].
  Qed.
  Lemma tab24 : R24 = recs (length (ks 0x10000 0xffffff)) 0x10000 8 (t_map24 T) /\ zlen (t_map24 T) = Z.of_nat (length (ks 0x10000 0xffffff)) * 8.
  Proof.
    cbn [t_map24 T]. rewrite (print_map_eq _ _ _ 0 (eo_sorted _ _ _ _ E)). destruct (recs_enc 0x10000 8 (enc 0xffffff) (ks 0x10000 0xffffff)) as (A & B).
    { intros k t I. apply fill24. apply fits24. exact I. } split; [symmetry; exact A|exact B].
  Qed.
  Lemma hi_dec : forall e x y, m_hi (dec (e, x, y)) = y.
  Proof. intros. unfold m_hi, dec. cbn [m_cp1 m_range]. lia. Qed.
  Lemma hi8 : forall m, In m R8 -> m_hi m <= 0xff.
  Proof.
    intros m I. apply in_map_iff in I. destruct I as (k & <- & I). apply ks_in in I. destruct I as (e & x & y & -> & I & W & X).
    rewrite hi_dec. pose proof (top8 e I). lia.
  Qed.
  Lemma hi16 : forall m, In m R16 -> m_hi m <= 0xffff.
  Proof.
    intros m I. apply in_map_iff in I. destruct I as (k & <- & I). apply ks_in in I. destruct I as (e & x & y & -> & I & W & X).
    rewrite hi_dec. pose proof (top16 e I). lia.
  Qed.
  Lemma hi24 : forall m, In m R24 -> m_hi m <= 0x10ffff.
  Proof.
    intros m I. apply in_map_iff in I. destruct I as (k & <- & I). apply ks_in in I. destruct I as (e & x & y & -> & I & W & X).
    rewrite hi_dec. pose proof (eo_hi _ _ _ _ E e I). lia.
  Qed.

  Lemma lookup_find : forall c, 0 <= c <= 0xffffff -> get_idna_map_in T c =
    match find (covers m_cp1 m_hi c) (if c <=? 0xff then R8 else if c <=? 0xffff then R16 else R24) with
    | Some m => Ok (m, 0)
    | None => Ok (IdnaMap 0 0 0 0 0, -1)
    end.
  Proof.
    apply (get_idna_map_find T R8 R16 R24 (length (ks 0 0xff)) (length (ks 0x100 0xffff)) (length (ks 0x10000 0xffffff)));
      try apply tab8; try apply tab16; try apply tab24; try exact (map_length _ _); try exact (ks_sorted _ _). exact hi8. exact hi16. exact hi24.
  Qed.
  Lemma class_window : forall e c, In e es -> inside c e ->
    (if c <=? 0xff then 0 <= g1 e <= 0xff else if c <=? 0xffff then 0x100 <= g1 e <= 0xffff else 0x10000 <= g1 e <= 0xffffff).
  Proof.
    intros e c I C. unfold inside in C. pose proof (low e I). pose proof (eo_hi _ _ _ _ E e I). pose proof (top8 e I). pose proof (top16 e I).
    destruct (c <=? 0xff) eqn:A; [zb; lia|]. destruct (c <=? 0xffff) eqn:B; zb; lia.
  Qed.

  Lemma table_hit : forall r c, In r rows -> within c r -> exists m, get_idna_map_in T c = Ok (m, 0) /\
    rd (t_flags T) (m_idx m) = Ok (flag_of (r_status r)) /\ get_map_data_in T m = Ok (r_map r) /\ m_n m = zlen (r_map r).
  Proof.
    intros r c I W. destruct (eo_cover _ _ _ _ E r c I W) as (e & Ie & We & Re). pose proof (class_window e c Ie We) as Cw.
    pose proof (low e Ie). pose proof (eo_hi _ _ _ _ E e Ie). unfold inside in We.
    assert (K : exists x y, In (dec (e, x, y)) (R8 ++ R16 ++ R24) /\ x <= c <= y).
    { destruct (c <=? 0xff); [|destruct (c <=? 0xffff)].
      - destruct (ks_cover 0 0xff e c Ie Cw We) as (x & y & J & X). exists x, y. split; [|exact X]. apply in_app_iff. left. apply in_map. exact J.
      - destruct (ks_cover 0x100 0xffff e c Ie Cw We) as (x & y & J & X). exists x, y. split; [|exact X]. apply in_app_iff. right. apply in_app_iff. left. apply in_map. exact J.
      - destruct (ks_cover 0x10000 0xffffff e c Ie Cw We) as (x & y & J & X). exists x, y. split; [|exact X]. apply in_app_iff. right. apply in_app_iff. right. apply in_map. exact J. }
    destruct K as (x & y & J & X). exists (dec (e, x, y)).
    destruct (find_recs R8 R16 R24 _ _ _ eq_refl eq_refl eq_refl (ks_sorted _ _) (ks_sorted _ _) (ks_sorted _ _) hi8 hi16 hi24 c (dec (e, x, y))) as (_ & F); [lia|exact J|rewrite hi_dec; exact X|].
    rewrite lookup_find by lia. rewrite F. split; [reflexivity|]. cbn [dec m_idx m_n]. cbn [T t_flags].
    destruct (eo_idx _ _ _ _ E e Ie) as (_ & G). rewrite G, (re_flags _ _ _ _ Re). split; [reflexivity|]. split; [|exact (re_n _ _ _ _ Re)].
    unfold get_map_data_in. cbn [t_mapdata T m_off m_n dec]. pose proof (re_off _ _ _ _ Re). destruct (zlen data <? goff e) eqn:O; zb; [lia|].
    destruct (re_data _ _ _ _ Re) as (t & ->). rewrite (re_n _ _ _ _ Re). unfold zlen. rewrite Nat2Z.id. apply stream_cps_spec.
    apply (eo_maps _ _ _ _ E r I).
  Qed.
  Lemma table_miss : forall c, 0 <= c -> (forall r, In r rows -> ~ within c r) -> get_idna_map_in T c = Ok (IdnaMap 0 0 0 0 0, -1).
  Proof.
    intros c C0 N. destruct (Z.le_gt_cases c 0xffffff) as [L|L].
    - rewrite lookup_find by lia. destruct (find _ _) as [m|] eqn:F; [|reflexivity]. exfalso.
      assert (K : exists min max, In m (map dec (ks min max)) /\ covers m_cp1 m_hi c m = true).
      { destruct (c <=? 0xff); [|destruct (c <=? 0xffff)]; apply find_some in F; do 2 eexists; exact F. }
      destruct K as (min & max & I & Cv). apply covers_iff in Cv. apply in_map_iff in I. destruct I as (k & <- & I).
      apply ks_in in I. destruct I as (e & x & y & -> & Ie & W & X). rewrite hi_dec in Cv. change (m_cp1 (dec (e, x, y))) with x in Cv.
      destruct (eo_only _ _ _ _ E e c Ie) as (r & Ir & Wr); [unfold inside; lia|]. exact (N r Ir Wr).
    - unfold get_idna_map_in.
      destruct (c <=? 0xff) eqn:E1; zb; [lia|]. destruct (c <=? 0xffff) eqn:E2; zb; [lia|].
      destruct (c <=? 0xffffff) eqn:E3; zb; [lia|]. reflexivity.
  Qed.
End Tables.

(** * Quick check *)
Lemma read_nfcqc_spec : forall rs cnt l, read_nfcqc rs cnt = Some l ->
  l = map (fun r => NfcQc (q_lo r) (q_hi r) (check_of (q_qc r))) rs /\ Forall (fun r => q_lo r <= q_hi r) rs.
Proof.
  induction rs as [|r rs IH]; intros cnt l; cbn [read_nfcqc map].
  - intros H. injection H as <-. auto.
  - destruct (q_hi r <? q_lo r) eqn:E1; [discriminate|]. destruct (NFCQC_SIZE <=? cnt + 1); [discriminate|].
    destruct (read_nfcqc rs (cnt + 1)) as [l'|] eqn:R; [|discriminate]. intros H. injection H as <-. zb. destruct (IH _ _ R) as (-> & F). auto.
Qed.
Lemma nq_le : forall a b, nq1 a <= nq2 a -> nq1 b <= nq2 b -> apart nq1 nq2 a b -> (nq_by_cp a b = true -> nq2 a < nq1 b) /\ (nq_by_cp a b = false -> nq2 b < nq1 a).
Proof.
  intros a b A B X. unfold nq_by_cp, apart in *. split; intros H; [apply orb_true_iff in H; destruct H|]; zb; lia.
Qed.
Lemma generated_qc : forall qs l T0, read_nfcqc qs 0 = Some l -> qrows_apart qs -> t_nfcqc T0 = qsort nq_by_cp l ->
  forall c, exists o, get_nfcqc_in T0 c = Ok o /\
  match find (covers q_lo q_hi c) qs with
  | None => o = None
  | Some r => exists m, o = Some m /\ nq_check m = check_of (q_qc r)
  end.
Proof.
  intros qs l T0 R (P0 & P) E. apply read_nfcqc_spec in R. destruct R as (-> & F). set (f := fun r : qrow => NfcQc (q_lo r) (q_hi r) (check_of (q_qc r))) in *.
  pose proof (qsort_perm nq_by_cp (map f qs)) as Pm. apply qc_spec; rewrite E.
  - intros r I. exists (f r). split; [apply (Permutation_in _ (Permutation_sym Pm)); apply in_map; exact I|repeat split].
  - intros m I. apply (Permutation_in _ Pm) in I. apply in_map_iff in I. destruct I as (r & <- & I). exists r. split; [exact I|split; reflexivity].
  - apply qsort_sorted; [exact nq_le| |].
    + clear - F P. split.
      * induction F; constructor; auto. apply IHF. inversion P; assumption.
      * induction P as [|r qs X P IH]; cbn [map]; constructor.
        -- rewrite Forall_map. exact X.
        -- apply IH. exact (Forall_inv_tail F).
    + rewrite Forall_map. exact P0.
Qed.

Lemma generated_ok : forall rows qs T0, Forall row_ok rows -> (forall b, In b bounds -> split_at rows b) -> qrows_apart qs ->
  gentr46map rows qs = Some T0 ->
  (forall r c, In r rows -> within c r -> exists m, get_idna_map_in T0 c = Ok (m, 0) /\
     rd (t_flags T0) (m_idx m) = Ok (flag_of (r_status r)) /\ get_map_data_in T0 m = Ok (r_map r) /\ m_n m = zlen (r_map r)) /\
  (forall c, 0 <= c -> (forall r, In r rows -> ~ within c r) -> get_idna_map_in T0 c = Ok (IdnaMap 0 0 0 0 0, -1)) /\
  (forall c, exists o, get_nfcqc_in T0 c = Ok o /\
     match find (covers q_lo q_hi c) qs with
     | None => o = None
     | Some r => exists m, o = Some m /\ nq_check m = check_of (q_qc r)
     end).
Proof.
  intros rows qs T0 F S Q H. unfold gentr46map in H.
  destruct (read_rows rows [] 0 0 []) as [[maps gen]|] eqn:R; [|discriminate].
  destruct (compact maps gen) as [maps1 data] eqn:C. destruct (combine_flags maps1 []) as [[maps2 combos]|] eqn:N; [|discriminate].
  destruct (read_nfcqc qs 0) as [q|] eqn:RQ; [|discriminate]. injection H as <-.
  pose proof (prepare_ok _ _ _ _ _ _ _ F S R C N) as E. split; [|split].
  - exact (table_hit _ _ _ _ (qsort nq_by_cp q) E).
  - exact (table_miss _ _ _ _ (qsort nq_by_cp q) E).
  - exact (generated_qc _ _ (Tr46Tables combos (print_map 0 0xff maps2) (print_map 0x100 0xffff maps2) (print_map 0x10000 0xffffff maps2) data (qsort nq_by_cp q)) RQ Q eq_refl).
Qed.
