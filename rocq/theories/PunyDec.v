(** Decoder: safety, range of the result, and inversion by the encoder. *)
From Verif Require Import Base Puny PunyBase PunyRT.

Definition ins (o : list Z) (i n : Z) : list Z :=
  firstn (Z.to_nat i) o ++ n :: skipn (Z.to_nat i) o.

Lemma zlen_ins : forall o i n, zlen (ins o i n) = zlen o + 1.
Proof.
  intros. unfold ins. rewrite zlen_app, zlen_cons.
  rewrite <- (firstn_skipn (Z.to_nat i) o) at 3. rewrite zlen_app. lia.
Qed.
Lemma insert_at_ok : forall cap o i n, zlen o + 1 <= cap -> 0 <= i <= zlen o ->
  insert_at cap o i n = Ok (ins o i n).
Proof.
  intros. unfold insert_at.
  destruct (zlen o + 1 <=? cap) eqn:E1; zb; [|lia].
  destruct (0 <=? i) eqn:E2; zb; [|lia].
  destruct (i <=? zlen o) eqn:E3; zb; [|lia]. reflexivity.
Qed.

(** One decoder step, inverted. *)
Record dstep (mo : Z) (inp o : list Z) (n i bias : Z)
       (ds rest : list Z) (q n' i2 bias' : Z) : Prop := mkdstep {
  s_inp : inp = ds ++ rest;
  s_ne : ds <> [];
  s_vi : forall f, map decode_digit ds = vi (length ds + f) bias q 36;
  s_q : 0 <= q;
  s_pos : i + q = (n' - n) * (zlen o + 1) + i2;
  s_max : i + q <= maxint;
  s_i2 : 0 <= i2 <= zlen o;
  s_n : n <= n';
  s_cp : cp_ok n';
  s_adapt : adapt q (zlen o + 1) (i =? 0) = Ok bias';
  s_bias : bias_ok bias';
  s_room : zlen o < mo
}.

Lemma D_inv : forall cap mo inp o n i bias,
  inp <> [] -> bias_ok bias -> 0 <= i <= zlen o -> 0 <= n <= 1114111 ->
  zlen o <= mo -> mo <= maxint -> mo <= cap -> zlen o < maxint ->
  (exists ds rest q n' i2 bias',
     dstep mo inp o n i bias ds rest q n' i2 bias' /\
     D cap mo inp o n i bias = D cap mo rest (ins o i2 n') n' (i2 + 1) bias')
  \/ (exists rc, D cap mo inp o n i bias = Fail rc /\
       (rc = IDN2_PUNYCODE_BAD_INPUT \/ rc = IDN2_PUNYCODE_OVERFLOW \/ rc = IDN2_PUNYCODE_BIG_OUTPUT)).
Proof.
  intros cap mo inp o n i bias NE Hb Hi Hn Ho Hmo Hcap Hlt.
  assert (KW : kw 36 1) by (unfold kw; simpl; lia).
  rewrite D_step by auto. cbv zeta.
  pose proof (dec_varint_safe inp bias i 1 36 Hb KW ltac:(lia) ltac:(unfold maxint; lia)) as SF.
  destruct (dec_varint inp bias i 1 36) as [[i1 rest]|rc| |] eqn:E; try contradiction; cbn [bind].
  2:{ right. exists rc. split; auto. tauto. }
  apply dec_varint_inv in E; auto; [|lia|unfold maxint; lia].
  destruct E as (q & ds & E1 & E2 & E3 & E4 & E5 & E6). rewrite Z.mul_1_r in E3. subst i1.
  rewrite (u32_id (zlen o + 1)) by (unfold two32, maxint in *; lia).
  replace (i + q - i) with q by lia.
  rewrite (u32_id q) by (unfold two32, maxint in *; lia).
  destruct (adapt_ok q (zlen o + 1) (i =? 0)) as (bias' & A1 & A2); [unfold two32, maxint in *; lia|lia|].
  rewrite A1. cbn [bind].
  destruct (zlen o + 1 =? 0) eqn:E7; zb; [lia|].
  set (k := (i + q) / (zlen o + 1)). set (i2 := (i + q) mod (zlen o + 1)).
  assert (K : i + q = (zlen o + 1) * k + i2) by (apply Z.div_mod; lia).
  assert (I2 : 0 <= i2 < zlen o + 1) by (apply Z.mod_pos_bound; lia).
  assert (K0 : 0 <= k) by (apply Z.div_pos; lia).
  rewrite (u32_id (maxint - n)) by (unfold two32, maxint in *; lia).
  destruct (maxint - n <? k) eqn:E8; zb; [right; eauto|].
  rewrite (u32_id (n + k)) by (unfold two32, maxint in *; lia).
  destruct ((1114111 <? n + k) || _) eqn:E9; [right; eauto|]. zb.
  apply andb_false_iff in H0.
  destruct (mo <=? zlen o) eqn:E10; zb; [right; eauto|].
  rewrite insert_at_ok by lia. cbn [bind].
  rewrite (u32_id (i2 + 1)) by (unfold two32, maxint in *; lia).
  left. exists ds, rest, q, (n + k), i2, bias'. split; [|reflexivity].
  constructor; auto; try lia.
  unfold cp_ok. destruct H0; zb; lia.
Qed.

(** Safety and shape of the result. *)
Lemma D_safe : forall len cap mo inp o n i bias, (length inp <= len)%nat ->
  bias_ok bias -> 0 <= i <= zlen o -> 128 <= n <= 1114111 ->
  zlen o <= mo -> mo <= maxint -> mo <= cap ->
  mo < maxint \/ zlen o + zlen inp <= maxint ->
  match D cap mo inp o n i bias with
  | Ok L => zlen L <= mo /\ zlen L <= zlen o + zlen inp /\
            Forall (fun c => In c o \/ (128 <= c /\ cp_ok c)) L /\
            (inp <> [] -> Exists (fun c => 128 <= c) L) /\
            (forall c, In c o -> In c L) /\ zlen o <= zlen L /\ (inp <> [] -> zlen o < zlen L)
  | Fail rc => rc = IDN2_PUNYCODE_BAD_INPUT \/ rc = IDN2_PUNYCODE_OVERFLOW \/
               (rc = IDN2_PUNYCODE_BIG_OUTPUT)
  | _ => False
  end.
Proof.
  induction len as [|len IH]; intros cap mo inp o n i bias Hlen Hb Hi Hn Ho Hmo Hcap Hlt.
  - destruct inp; [|simpl in Hlen; lia]. cbn [D length dec_main].
    change (D cap mo [] o n i bias) with (Ok o : out (list Z)). cbv iota.
    rewrite zlen_nil. repeat split; try lia; try congruence; auto.
    apply Forall_forall. auto.
  - destruct inp as [|c0 inp0] eqn:EI.
    { change (D cap mo [] o n i bias) with (Ok o : out (list Z)). cbv iota.
      rewrite zlen_nil. repeat split; try lia; try congruence; auto.
      apply Forall_forall. auto. }
    rewrite <- EI in *. assert (NE : inp <> []) by (subst; discriminate).
    assert (ZI : 1 <= zlen inp) by (rewrite EI, zlen_cons; pose proof (zlen_nonneg _ inp0); lia).
    clear EI c0 inp0.
    destruct (D_inv cap mo inp o n i bias) as [S|(rc & S1 & S2)]; auto; try lia.
    + destruct S as (ds & rest & q & n' & i2 & bias' & S & ES). rewrite ES. destruct S.
      assert (NR : (length rest <= len)%nat).
      { subst inp. rewrite app_length in Hlen. destruct ds; [congruence|]. simpl in Hlen. lia. }
      assert (ZR : zlen rest + 1 <= zlen inp).
      { subst inp. rewrite zlen_app. destruct ds; [congruence|]. rewrite zlen_cons.
        pose proof (zlen_nonneg _ ds). lia. }
      specialize (IH cap mo rest (ins o i2 n') n' (i2 + 1) bias' NR).
      rewrite zlen_ins in IH. destruct s_cp0.
      specialize (IH ltac:(auto) ltac:(lia) ltac:(lia) ltac:(lia) ltac:(lia) ltac:(lia) ltac:(lia)).
      assert (INn : In n' (ins o i2 n')).
      { unfold ins. apply in_or_app. right. left. reflexivity. }
      assert (INo : forall c, In c o -> In c (ins o i2 n')).
      { intros c Hc. rewrite <- (firstn_skipn (Z.to_nat i2) o) in Hc. unfold ins.
        apply in_app_or in Hc. apply in_or_app. destruct Hc; [left; auto|right; right; auto]. }
      destruct (D cap mo rest _ _ _ _) as [L| | |]; auto.
      destruct IH as (A1 & A2 & A3 & A4 & A5 & A6 & A7).
      split; [lia|]. split; [lia|]. split; [|split; [|split; [|split]]].
      * rewrite Forall_forall in *. intros c Hc. destruct (A3 c Hc) as [B|B]; [|auto].
        unfold ins in B. apply in_app_or in B. rewrite <- (firstn_skipn (Z.to_nat i2) o).
        destruct B as [B|[B|B]].
        -- left. apply in_or_app. auto.
        -- right. subst c. split; [lia|split; auto].
        -- left. apply in_or_app. auto.
      * intros _. apply Exists_exists. exists n'. split; [auto|lia].
      * intros c Hc. auto.
      * lia.
      * intros _. lia.
    + rewrite S1. auto.
Qed.

(** State invariant of the decoder: the last insertion was [n] at [i-1]. *)
Definition dinv (o : list Z) (n i : Z) : Prop :=
  0 <= i <= zlen o /\
  Forall (fun c => c <= n) (firstn (Z.to_nat i) o) /\
  Forall (fun c => c < n) (skipn (Z.to_nat i) o).

Lemma firstn_ins : forall o i n, 0 <= i <= zlen o ->
  firstn (Z.to_nat (i + 1)) (ins o i n) = firstn (Z.to_nat i) o ++ [n].
Proof.
  intros o i n H. unfold ins. assert (L : length (firstn (Z.to_nat i) o) = Z.to_nat i).
  { apply firstn_length_le. unfold zlen in H. lia. }
  rewrite firstn_app, L. replace (Z.to_nat (i + 1) - Z.to_nat i)%nat with 1%nat by lia.
  rewrite firstn_all2 by lia. reflexivity.
Qed.
Lemma skipn_ins : forall o i n, 0 <= i <= zlen o ->
  skipn (Z.to_nat (i + 1)) (ins o i n) = skipn (Z.to_nat i) o.
Proof.
  intros o i n H. unfold ins. assert (L : length (firstn (Z.to_nat i) o) = Z.to_nat i).
  { apply firstn_length_le. unfold zlen in H. lia. }
  rewrite skipn_app, L. replace (Z.to_nat (i + 1) - Z.to_nat i)%nat with 1%nat by lia.
  rewrite skipn_all2 by lia. reflexivity.
Qed.

Lemma Forall_firstn : forall (P : Z -> Prop) k l, Forall P l -> Forall P (firstn k l).
Proof.
  intros P k l H. rewrite <- (firstn_skipn k l) in H. apply Forall_app in H. tauto.
Qed.
Lemma Forall_skipn : forall (P : Z -> Prop) k l, Forall P l -> Forall P (skipn k l).
Proof.
  intros P k l H. rewrite <- (firstn_skipn k l) in H. apply Forall_app in H. tauto.
Qed.
Lemma dinv_le : forall o n i, dinv o n i -> Forall (fun c => c <= n) o.
Proof.
  intros o n i (H1 & H2 & H3). rewrite <- (firstn_skipn (Z.to_nat i) o).
  apply Forall_app. split; auto. eapply Forall_impl; [|exact H3]. cbv beta. intros; lia.
Qed.
Lemma firstn_skipn_comm' : forall (l : list Z) a b, (a <= b)%nat ->
  firstn b l = firstn a l ++ firstn (b - a) (skipn a l).
Proof.
  intros l a b H. rewrite <- (firstn_skipn a l) at 1. rewrite firstn_app.
  rewrite firstn_firstn, Nat.min_r by lia. f_equal.
  destruct (le_lt_dec a (length l)).
  - rewrite firstn_length_le by lia. reflexivity.
  - rewrite skipn_all2 by lia. rewrite !firstn_nil. reflexivity.
Qed.
Lemma skipn_skipn : forall (l : list Z) a b, skipn a (skipn b l) = skipn (a + b) l.
Proof.
  induction l; intros a0 b. now rewrite !skipn_nil.
  destruct b. now rewrite Nat.add_0_r. rewrite Nat.add_succ_r. cbn. apply IHl.
Qed.
Lemma skipn_skipn' : forall (l : list Z) a b, (a <= b)%nat ->
  skipn a l = firstn (b - a) (skipn a l) ++ skipn b l.
Proof.
  intros l a b H. rewrite <- (firstn_skipn (b - a) (skipn a l)) at 1. f_equal.
  rewrite skipn_skipn. f_equal. lia.
Qed.

(** An insertion keeps the invariant. *)
Lemma dinv_step : forall o n i n' i2, dinv o n i -> n <= n' -> 0 <= i2 <= zlen o ->
  (n' = n -> i <= i2) -> dinv (ins o i2 n') n' (i2 + 1).
Proof.
  intros o n i n' i2 HI Hn Hi2 Hsame. pose proof (dinv_le _ _ _ HI) as HO.
  destruct HI as (H1 & H2 & H3).
  split; [rewrite zlen_ins; lia|]. rewrite firstn_ins, skipn_ins by lia. split.
  - apply Forall_app. split; [|repeat constructor; lia].
    apply Forall_firstn. eapply Forall_impl; [|exact HO]. cbv beta. intros; lia.
  - destruct (Z.eq_dec n' n) as [E|E].
    + subst n'. specialize (Hsame eq_refl).
      rewrite (skipn_skipn' o (Z.to_nat i) (Z.to_nat i2)) in H3 by lia.
      apply Forall_app in H3. tauto.
    + apply Forall_skipn. eapply Forall_impl; [|exact HO]. cbv beta. intros; lia.
Qed.

Lemma filter_all : forall (f : Z -> bool) l, Forall (fun c => f c = true) l -> filter f l = l.
Proof. induction l; intros H; auto. inversion H; subst. cbn [filter]. rewrite H2. f_equal. auto. Qed.
Lemma filter_none : forall (f : Z -> bool) l, Forall (fun c => f c = false) l -> filter f l = [].
Proof. induction l; intros H; auto. inversion H; subst. cbn [filter]. rewrite H2. auto. Qed.
Lemma filter_filter : forall (f g : Z -> bool) l,
  filter f (filter g l) = filter (fun c => g c && f c) l.
Proof.
  induction l; auto. cbn [filter]. destruct (g a) eqn:E; cbn [andb filter]; [|exact IHl].
  destruct (f a); [f_equal|]; exact IHl.
Qed.
Lemma filter_sub : forall (f g : Z -> bool) l, (forall c, f c = true -> g c = true) ->
  filter f (filter g l) = filter f l.
Proof.
  intros. rewrite filter_filter. apply filter_ext. intros c. specialize (H c).
  destruct (f c); [rewrite H; auto|now rewrite andb_false_r].
Qed.

(** Split a list at a prefix of its filtered image. *)
Lemma filter_split : forall (f : Z -> bool) l a b, filter f l = a ++ b ->
  exists l1 l2, l = l1 ++ l2 /\ filter f l1 = a /\ filter f l2 = b.
Proof.
  intros f l. induction l as [|c l IH]; intros a b H.
  - cbn in H. symmetry in H. apply app_eq_nil in H. destruct H; subst. exists [], []. auto.
  - cbn [filter] in H. destruct (f c) eqn:E.
    + destruct a as [|a0 a].
      * exists [], (c :: l). split; auto. split; auto. cbn [filter]. rewrite E. auto.
      * cbn [app] in H. inversion H; subst. destruct (IH a b H2) as (l1 & l2 & A & B & C).
        exists (a0 :: l1), l2. subst l. split; auto. split; auto. cbn [filter]. rewrite E. f_equal; auto.
    + destruct (IH a b H) as (l1 & l2 & A & B & C). exists (c :: l1), l2. subst l.
      split; auto. split; auto. cbn [filter]. rewrite E. auto.
Qed.

Lemma le_lt_n : forall n c, lt_n n c = true -> le_n n c = true.
Proof. unfold le_n, lt_n. intros. zb. apply Z.leb_le. lia. Qed.

(** From any state, the final result [L] has a cut where everything the
    decoder had seen is visible. *)
Lemma D_cut : forall len cap mo inp o n i bias L, (length inp <= len)%nat ->
  bias_ok bias -> 0 <= n <= 1114111 -> dinv o n i ->
  zlen o <= mo -> mo <= maxint -> mo <= cap ->
  D cap mo inp o n i bias = Ok L ->
  exists pre l, L = pre ++ l /\ filter (le_n n) pre = firstn (Z.to_nat i) o /\
                filter (lt_n n) l = skipn (Z.to_nat i) o.
Proof.
  induction len as [|len IH]; intros cap mo inp o n i bias L Hlen Hb Hn HI Ho Hmo Hcap HD.
  assert (BASE : forall inp, inp = [] -> D cap mo inp o n i bias = Ok L ->
     exists pre l, L = pre ++ l /\ filter (le_n n) pre = firstn (Z.to_nat i) o /\
                filter (lt_n n) l = skipn (Z.to_nat i) o).
  { intros inp' E H. subst inp'. cbn in H. inversion H; subst L. destruct HI as (H1 & H2 & H3).
    exists (firstn (Z.to_nat i) o), (skipn (Z.to_nat i) o).
    split; [now rewrite firstn_skipn|]. split.
    - apply filter_all. eapply Forall_impl; [|exact H2]. intros c Hc. apply Z.leb_le. auto.
    - apply filter_all. eapply Forall_impl; [|exact H3]. intros c Hc. apply Z.ltb_lt. auto. }
  - destruct inp; [|simpl in Hlen; lia]. apply (BASE []); auto.
  - destruct inp as [|c0 inp0] eqn:EI.
    + cbn in HD. inversion HD; subst L. destruct HI as (H1 & H2 & H3).
      exists (firstn (Z.to_nat i) o), (skipn (Z.to_nat i) o).
      split; [now rewrite firstn_skipn|]. split.
      * apply filter_all. eapply Forall_impl; [|exact H2]. intros c Hc. apply Z.leb_le. auto.
      * apply filter_all. eapply Forall_impl; [|exact H3]. intros c Hc. apply Z.ltb_lt. auto.
    + rewrite <- EI in *. assert (NE : inp <> []) by (subst; discriminate). clear EI c0 inp0.
      assert (LT : zlen o < maxint).
      { destruct (Z.eq_dec (zlen o) maxint) as [E|E]; [|lia]. exfalso.
        rewrite D_step in HD by auto. cbv zeta in HD. rewrite E in HD.
        destruct (dec_varint inp bias i 1 36) as [[i1 rest]| | |]; cbn [bind] in HD; try discriminate. }
      destruct HI as (HI1 & HI2 & HI3).
      destruct (D_inv cap mo inp o n i bias) as [S|(rc & S1 & S2)]; auto; try lia; [|congruence].
      destruct S as (ds & rest & q & n' & i2 & bias' & S & ES). rewrite ES in HD. destruct S.
      assert (NR : (length rest <= len)%nat).
      { subst inp. rewrite app_length in Hlen. destruct ds; [congruence|]. simpl in Hlen. lia. }
      assert (SAME : n' = n -> i <= i2). { intros E. subst n'. lia. }
      assert (HI : dinv o n i) by (split; auto).
      pose proof (dinv_step _ _ _ _ _ HI s_n0 s_i3 SAME) as HI'.
      destruct s_cp0 as [CP1 CP2].
      destruct (IH cap mo rest (ins o i2 n') n' (i2 + 1) bias' L NR) as (pre' & l' & C1 & C2 & C3);
        auto; try lia. { rewrite zlen_ins. lia. }
      rewrite firstn_ins in C2 by lia. rewrite skipn_ins in C3 by lia.
      destruct (Z.eq_dec n' n) as [E|E].
      * subst n'. specialize (SAME eq_refl).
        rewrite (firstn_skipn_comm' o (Z.to_nat i) (Z.to_nat i2)) in C2 by lia.
        rewrite <- app_assoc in C2.
        apply filter_split in C2. destruct C2 as (pre & mid & P1 & P2 & P3).
        exists pre, (mid ++ l'). subst pre' L. split; [now rewrite app_assoc|]. split; [auto|].
        rewrite filter_app, C3.
        rewrite (skipn_skipn' o (Z.to_nat i) (Z.to_nat i2)) by lia. f_equal.
        rewrite <- (filter_sub (lt_n n) (le_n n)) by apply le_lt_n. rewrite P3.
        rewrite filter_app. cbn [filter]. unfold lt_n at 2. rewrite Z.ltb_irrefl, app_nil_r.
        apply filter_all. eapply Forall_impl; [|apply Forall_firstn; exact HI3].
        intros c Hc. apply Z.ltb_lt. auto.
      * assert (HO : Forall (fun c => c <= n) o) by (apply dinv_le with i; auto).
        assert (FL : filter (le_n n) L = o).
        { subst L. rewrite filter_app.
          assert (X1 : filter (le_n n) pre' = firstn (Z.to_nat i2) o).
          { rewrite <- (filter_sub (le_n n) (le_n n')).
            - rewrite C2, filter_app. cbn [filter]. unfold le_n at 2.
              destruct (n' <=? n) eqn:E2; zb; [lia|]. rewrite app_nil_r.
              apply filter_all. apply Forall_firstn. eapply Forall_impl; [|exact HO].
              intros c Hc. apply Z.leb_le. auto.
            - unfold le_n. intros. zb. apply Z.leb_le. lia. }
          assert (X2 : filter (le_n n) l' = skipn (Z.to_nat i2) o).
          { rewrite <- (filter_sub (le_n n) (lt_n n')).
            - rewrite C3. apply filter_all. apply Forall_skipn. eapply Forall_impl; [|exact HO].
              intros c Hc. apply Z.leb_le. auto.
            - unfold le_n, lt_n. intros. zb. apply Z.ltb_lt. lia. }
          rewrite X1, X2. apply firstn_skipn. }
        rewrite <- (firstn_skipn (Z.to_nat i) o) in FL. apply filter_split in FL.
        destruct FL as (pre & l & P1 & P2 & P3). exists pre, l. split; [auto|]. split; [auto|].
        rewrite <- (filter_sub (lt_n n) (le_n n)) by apply le_lt_n. rewrite P3.
        apply filter_all. eapply Forall_impl; [|exact HI3]. intros c Hc. apply Z.ltb_lt. auto.
Qed.

Lemma zlen_filter_mono : forall (f g : Z -> bool) l, (forall c, f c = true -> g c = true) ->
  zlen (filter f l) <= zlen (filter g l).
Proof.
  intros. rewrite <- (filter_sub f g) by auto. apply zlen_filter.
Qed.

Lemma nth_error_firstn : forall (l : list Z) k j, (j < k)%nat -> nth_error (firstn k l) j = nth_error l j.
Proof.
  induction l; intros k j H. now rewrite firstn_nil.
  destruct k; [lia|]. destruct j; cbn; auto. apply IHl. lia.
Qed.
Lemma nth_error_skipn : forall (l : list Z) k j, nth_error (skipn k l) j = nth_error l (k + j).
Proof.
  induction l; intros k j. rewrite skipn_nil. now rewrite !nth_error_nil || (destruct j, (k + _)%nat; reflexivity).
  destruct k; auto. cbn. apply IHl.
Qed.

(** The next insertion of the decoder is dictated by the final result. *)
Lemma next_insertion : forall cap mo inp o nd id bias L n pre l,
  bias_ok bias -> 0 <= nd <= 1114111 -> dinv o nd id ->
  zlen o <= mo -> mo <= maxint -> mo <= cap ->
  D cap mo inp o nd id bias = Ok L ->
  L = pre ++ n :: l -> o = vis n pre (n :: l) -> nd <= n ->
  (nd = n -> id <= zlen (filter (le_n n) pre)) ->
  exists ds rest q bias',
    dstep mo inp o nd id bias ds rest q n (zlen (filter (le_n n) pre)) bias' /\
    D cap mo rest (vis n (pre ++ [n]) l) n (zlen (filter (le_n n) pre) + 1) bias' = Ok L.
Proof.
  intros cap mo inp o nd id bias L n pre l Hb Hnd HI Ho Hmo Hcap HD HL HV Hn Hpos.
  assert (HOV : o = filter (le_n n) pre ++ filter (lt_n n) l).
  { rewrite HV. unfold vis. cbn [filter]. unfold lt_n at 1. rewrite Z.ltb_irrefl. reflexivity. }
  set (pos := zlen (filter (le_n n) pre)) in *.
  assert (LEN : zlen o + 1 <= zlen L).
  { rewrite HOV, HL, !zlen_app, zlen_cons.
    pose proof (zlen_filter (le_n n) pre). pose proof (zlen_filter (lt_n n) l). lia. }
  assert (NE : inp <> []).
  { intros E. subst inp. cbn in HD. inversion HD; subst. rewrite H0 in LEN. lia. }
  assert (LT : zlen o < maxint).
  { destruct (Z.eq_dec (zlen o) maxint) as [E|E]; [|lia]. exfalso.
    rewrite D_step in HD by auto. cbv zeta in HD. rewrite E in HD.
    destruct (dec_varint inp bias id 1 36) as [[i1 rest]| | |]; cbn [bind] in HD; try discriminate. }
  pose proof (dinv_le _ _ _ HI) as HOle.
  pose proof HI as (HI1 & HI2 & HI3).
  destruct (D_inv cap mo inp o nd id bias) as [S|(rc & S1 & S2)]; auto; try lia; [|congruence].
  destruct S as (ds & rest & q & n' & i2 & bias' & S & ES). rewrite ES in HD.
  pose proof S as S0. destruct S0.
  assert (SAME : n' = nd -> id <= i2). { intros E. subst n'. lia. }
  pose proof (dinv_step _ _ _ _ _ HI s_n0 s_i3 SAME) as HI'.
  destruct s_cp0 as [CP1 CP2].
  destruct (D_cut (length rest) cap mo rest (ins o i2 n') n' (i2 + 1) bias' L) as (pre2 & l2 & C1 & C2 & C3);
    auto; try lia. { rewrite zlen_ins. lia. }
  rewrite firstn_ins in C2 by lia. rewrite skipn_ins in C3 by lia.
  assert (LF : zlen (firstn (Z.to_nat i2) o) = i2).
  { unfold zlen in *. rewrite firstn_length_le; lia. }
  assert (LS : zlen (skipn (Z.to_nat i2) o) = zlen o - i2).
  { unfold zlen in *. rewrite skipn_length; lia. }
  (* counting: at least |o|+1 elements of L are <= n' *)
  assert (CNT1 : zlen o + 1 <= zlen (filter (le_n n') L)).
  { rewrite C1, filter_app, C2, !zlen_app, zlen_cons, zlen_nil.
    assert (zlen (filter (lt_n n') l2) <= zlen (filter (le_n n') l2)) by (apply zlen_filter_mono; apply le_lt_n).
    rewrite C3 in H. lia. }
  assert (CNT2 : zlen o + 1 <= zlen (filter (le_n n) L)).
  { rewrite HL, filter_app. cbn [filter]. unfold le_n at 2. rewrite Z.leb_refl.
    rewrite zlen_app, zlen_cons.
    assert (zlen (filter (lt_n n) l) <= zlen (filter (le_n n) l)) by (apply zlen_filter_mono; apply le_lt_n).
    rewrite HOV, zlen_app. lia. }
  assert (NN : n' = n).
  { destruct (Z.lt_trichotomy n' n) as [T|[T|T]]; auto; exfalso.
    - (* n' < n *)
      assert (F : zlen (filter (le_n n') L) <= zlen (filter (lt_n n) L)).
      { apply zlen_filter_mono. unfold le_n, lt_n. intros. zb. apply Z.ltb_lt. lia. }
      assert (F2 : zlen (filter (lt_n n) L) <= zlen o).
      { rewrite HL, filter_app. cbn [filter]. unfold lt_n at 2. rewrite Z.ltb_irrefl.
        rewrite zlen_app, HOV, zlen_app.
        assert (zlen (filter (lt_n n) pre) <= zlen (filter (le_n n) pre)) by (apply zlen_filter_mono; apply le_lt_n).
        lia. }
      lia.
    - (* n < n' *)
      assert (F : zlen (filter (le_n n) L) <= zlen (filter (lt_n n') L)).
      { apply zlen_filter_mono. unfold le_n, lt_n. intros. zb. apply Z.ltb_lt. lia. }
      assert (F2 : zlen (filter (lt_n n') L) <= zlen o).
      { rewrite C1, filter_app, C3.
        rewrite <- (filter_sub (lt_n n') (le_n n') pre2) by apply le_lt_n.
        rewrite C2, filter_app. cbn [filter]. unfold lt_n at 2. rewrite Z.ltb_irrefl, app_nil_r.
        rewrite zlen_app. pose proof (zlen_filter (lt_n n') (firstn (Z.to_nat i2) o)). lia. }
      lia. }
  subst n'.
  assert (F1 : filter (le_n n) L = filter (le_n n) pre ++ n :: filter (le_n n) l).
  { rewrite HL, filter_app. cbn [filter]. unfold le_n at 2. rewrite Z.leb_refl. reflexivity. }
  assert (F2 : filter (le_n n) L = firstn (Z.to_nat i2) o ++ n :: filter (le_n n) l2).
  { rewrite C1, filter_app, C2, <- app_assoc. reflexivity. }
  assert (P0 : 0 <= pos) by apply zlen_nonneg.
  assert (N1 : nth_error (filter (le_n n) L) (Z.to_nat pos) = Some n).
  { rewrite F1. unfold pos, zlen. rewrite Nat2Z.id, nth_error_app2, Nat.sub_diag by lia. reflexivity. }
  assert (N2 : nth_error (filter (le_n n) L) (Z.to_nat i2) = Some n).
  { rewrite F2. assert (length (firstn (Z.to_nat i2) o) = Z.to_nat i2) by (unfold zlen in LF; lia).
    rewrite nth_error_app2, H, Nat.sub_diag by lia. reflexivity. }
  assert (PP : i2 = pos).
  { destruct (Z.lt_trichotomy i2 pos) as [T|[T|T]]; auto; exfalso.
    - (* i2 < pos: o[i2] = n *)
      rewrite F1 in N2. rewrite nth_error_app1 in N2 by (unfold pos, zlen in T; lia).
      assert (ON : nth_error o (Z.to_nat i2) = Some n).
      { rewrite HOV. rewrite nth_error_app1 by (unfold pos, zlen in T; lia). auto. }
      destruct (Z.eq_dec nd n) as [E|E].
      + subst nd. specialize (SAME eq_refl).
        replace (Z.to_nat i2) with (Z.to_nat id + (Z.to_nat i2 - Z.to_nat id))%nat in ON by lia.
        rewrite <- nth_error_skipn in ON. apply nth_error_In in ON.
        rewrite Forall_forall in HI3. apply HI3 in ON. lia.
      + apply nth_error_In in ON. rewrite Forall_forall in HOle. apply HOle in ON. lia.
    - (* pos < i2: o[pos] < n *)
      rewrite F2 in N1.
      assert (length (firstn (Z.to_nat i2) o) = Z.to_nat i2) by (unfold zlen in LF; lia).
      rewrite nth_error_app1, nth_error_firstn in N1 by lia.
      rewrite HOV in N1. rewrite nth_error_app2 in N1 by (unfold pos, zlen; lia).
      apply nth_error_In, filter_In in N1. destruct N1 as [_ N1]. unfold lt_n in N1. zb. lia. }
  subst i2. exists ds, rest, q, bias'. split; [exact S|].
  replace (vis n (pre ++ [n]) l) with (ins o pos n); [exact HD|].
  unfold ins, vis. rewrite HOV.
  assert (EP : Z.to_nat pos = length (filter (le_n n) pre)) by (unfold pos, zlen; lia).
  rewrite EP, firstn_app, skipn_app, Nat.sub_diag, firstn_all, skipn_all.
  cbn [firstn skipn]. rewrite app_nil_r, filter_app. cbn [filter]. unfold le_n at 3. rewrite Z.leb_refl.
  rewrite <- app_assoc. reflexivity.
Qed.
