(** Basic facts about the Punycode model: arithmetic, adapt, varints. *)
From Verif Require Import Base Puny.

Lemma u32_id : forall x, 0 <= x < two32 -> u32 x = x.
Proof. intros. unfold u32. apply Z.mod_small. auto. Qed.
Lemma u32_range : forall x, 0 <= u32 x < two32.
Proof. intros. unfold u32. apply Z.mod_pos_bound. reflexivity. Qed.
Lemma u64_id : forall x, 0 <= x < two64 -> u64 x = x.
Proof. intros. unfold u64. apply Z.mod_small. auto. Qed.

Lemma zlen_nil : forall A, zlen (@nil A) = 0. Proof. reflexivity. Qed.
Lemma zlen_cons : forall A (x:A) l, zlen (x :: l) = 1 + zlen l.
Proof. intros. unfold zlen. simpl length. lia. Qed.
Lemma zlen_app : forall A (l m : list A), zlen (l ++ m) = zlen l + zlen m.
Proof. intros. unfold zlen. rewrite app_length. lia. Qed.
Lemma zlen_nonneg : forall A (l : list A), 0 <= zlen l.
Proof. intros. unfold zlen. lia. Qed.
Lemma zlen_map : forall A B (f:A->B) l, zlen (map f l) = zlen l.
Proof. intros. unfold zlen. now rewrite map_length. Qed.
Global Hint Rewrite zlen_nil zlen_cons zlen_app zlen_map : zlen.

Lemma bind_ok : forall A B (m : out A) (f : A -> out B) b,
  bind m f = Ok b <-> exists a, m = Ok a /\ f a = Ok b.
Proof.
  intros. destruct m; simpl; split; intros H.
  - eauto.
  - destruct H as (x & E & H). now inversion E; subst.
  - discriminate.
  - destruct H as (x & E & H). discriminate.
  - discriminate.
  - destruct H as (x & E & H). discriminate.
  - discriminate.
  - destruct H as (x & E & H). discriminate.
Qed.

(** Split conditionals in the goal or in a hypothesis. *)
Ltac dif :=
  match goal with
  | |- context [if ?c then _ else _] => destruct c eqn:?
  end.
Ltac difH H :=
  match type of H with
  | context [if ?c then _ else _] => destruct c eqn:?
  end.
Ltac zb :=
  repeat match goal with
  | H : (_ <? _) = true |- _ => apply Z.ltb_lt in H
  | H : (_ <? _) = false |- _ => apply Z.ltb_ge in H
  | H : (_ <=? _) = true |- _ => apply Z.leb_le in H
  | H : (_ <=? _) = false |- _ => apply Z.leb_gt in H
  | H : (_ =? _) = true |- _ => apply Z.eqb_eq in H
  | H : (_ =? _) = false |- _ => apply Z.eqb_neq in H
  | H : _ && _ = true |- _ => apply andb_true_iff in H; destruct H
  | H : _ || _ = false |- _ => apply orb_false_iff in H; destruct H
  end.

Lemma le_div : forall a b c, 0 < c -> a <= b / c -> a * c <= b.
Proof.
  intros. pose proof (Z.mul_div_le b c H).
  assert (c * a <= c * (b / c)) by (apply Z.mul_le_mono_nonneg_l; lia). lia.
Qed.
Lemma lt_div : forall a b c, 0 < c -> b / c < a -> b < a * c.
Proof.
  intros. pose proof (Z.mul_succ_div_gt b c H).
  assert (c * Z.succ (b / c) <= c * a) by (apply Z.mul_le_mono_nonneg_l; lia). lia.
Qed.

(** * adapt *)
Lemma adapt_loop_ok : forall f k d,
  0 <= d <= 455 * 35 ^ Z.of_nat f -> 0 <= k -> k + 36 * Z.of_nat f <= 1000000 ->
  exists b, adapt_loop (S f) k d = Ok b /\ 0 <= b <= k + 36 * Z.of_nat f + 36.
Proof.
  induction f; intros k d Hd Hk Hb.
  - cbn [adapt_loop]. change (Z.of_nat 0) with 0 in *. simpl Z.pow in Hd.
    destruct (455 <? d) eqn:E; zb; [lia|].
    rewrite (u32_id (d + 38)) by (unfold two32; lia).
    rewrite (u32_id (36 * d)) by (unfold two32; lia).
    destruct (d + 38 =? 0) eqn:E2; zb; [lia|].
    assert (0 <= 36 * d / (d + 38) <= 36).
    { split. apply Z.div_pos; lia. apply Z.div_le_upper_bound; lia. }
    eexists. split. reflexivity. rewrite u32_id by (unfold two32; lia). lia.
  - rewrite Nat2Z.inj_succ in *. rewrite Z.pow_succ_r in Hd by lia.
    remember (S f) as g. cbn [adapt_loop].
    destruct (455 <? d) eqn:E; zb.
    + rewrite (u32_id (k + 36)) by (unfold two32; lia). subst g.
      destruct (IHf (k + 36) (d / 35)) as (b & Hb1 & Hb2).
      { split. apply Z.div_pos; lia. apply Z.div_le_upper_bound; lia. }
      lia. lia. exists b. split; [exact Hb1|lia].
    + rewrite (u32_id (d + 38)) by (unfold two32; lia).
      rewrite (u32_id (36 * d)) by (unfold two32; lia).
      destruct (d + 38 =? 0) eqn:E2; zb; [lia|].
      assert (0 <= 36 * d / (d + 38) <= 36).
      { split. apply Z.div_pos; lia. apply Z.div_le_upper_bound; lia. }
      eexists. split. reflexivity. rewrite u32_id by (unfold two32; lia). lia.
Qed.

Lemma adapt_ok : forall d np first,
  0 <= d < two32 -> 1 <= np ->
  exists b, adapt d np first = Ok b /\ 0 <= b <= 10000.
Proof.
  intros. unfold adapt. destruct (np =? 0) eqn:E; zb; [lia|].
  match goal with |- context [adapt_loop 32 0 ?x] => set (y := x) end.
  pose proof (u32_range (if first then d / 700 + d / 700 / np else Z.shiftr d 1 + Z.shiftr d 1 / np)) as R.
  assert (Hy : 0 <= y < two32) by (unfold y; apply u32_range).
  destruct (adapt_loop_ok 31 0 y) as (b & Hb1 & Hb2).
  - split; [lia|]. unfold two32 in *.
    assert (4294967296 <= 455 * 35 ^ Z.of_nat 31) by (vm_compute; discriminate). lia.
  - lia.
  - vm_compute; discriminate.
  - exists b. split; [exact Hb1|]. change (Z.of_nat 31) with 31 in Hb2. lia.
Qed.

(** * Threshold *)
Definition bias_ok (b : Z) := 0 <= b <= 10000.
Lemma thresh_eq : forall k b, bias_ok b -> 0 <= k < two32 ->
  thresh k b = Z.max 1 (Z.min 26 (k - b)).
Proof.
  unfold bias_ok, thresh. intros. destruct (k <=? b) eqn:E; zb. lia.
  rewrite (u32_id (b+26)) by (unfold two32; lia).
  destruct (b + 26 <=? k) eqn:E2; zb. lia.
  rewrite u32_id by (unfold two32 in *; lia). lia.
Qed.
Lemma thresh_range : forall k b, bias_ok b -> 0 <= k < two32 -> 1 <= thresh k b <= 26.
Proof. intros. rewrite thresh_eq by auto. lia. Qed.

(** * Digits *)
Lemma decode_encode_digit : forall d, 0 <= d < 36 -> decode_digit (encode_digit d) = d.
Proof.
  intros. unfold encode_digit, decode_digit.
  destruct (d <? 26) eqn:E; zb.
  - replace (d + 22 + 75 * 1) with (d + 97) by lia.
    replace (97 <=? d + 97) with true by (symmetry; apply Z.leb_le; lia).
    replace (d + 97 <=? 122) with true by (symmetry; apply Z.leb_le; lia). simpl. lia.
  - replace (d + 22 + 75 * 0) with (d + 22) by lia.
    replace (97 <=? d + 22) with false by (symmetry; apply Z.leb_gt; lia).
    replace (48 <=? d + 22) with true by (symmetry; apply Z.leb_le; lia).
    replace (d + 22 <=? 57) with true by (symmetry; apply Z.leb_le; lia). simpl. lia.
Qed.
Lemma decode_digit_range : forall c, 0 <= decode_digit c < 36.
Proof.
  intros. unfold decode_digit.
  destruct ((97 <=? c) && (c <=? 122)) eqn:E1; zb; [lia|].
  destruct ((48 <=? c) && (c <=? 57)) eqn:E2; zb; [lia|].
  destruct ((65 <=? c) && (c <=? 90)) eqn:E3; zb; lia.
Qed.
(** A lower-case Punycode digit. *)
Definition is_digit (c : Z) : Prop := 97 <= c <= 122 \/ 48 <= c <= 57.
Lemma encode_digit_range : forall d, 0 <= d < 36 -> is_digit (encode_digit d).
Proof. intros. unfold is_digit, encode_digit. destruct (d <? 26) eqn:E; zb; lia. Qed.
Lemma is_digit_basic : forall c, is_digit c -> dec_basic c = true /\ c <> 45.
Proof.
  unfold is_digit, dec_basic. intros c H. split; [|lia].
  destruct H as [H|H].
  - replace (97 <=? c) with true by (symmetry; apply Z.leb_le; lia).
    replace (c <=? 122) with true by (symmetry; apply Z.leb_le; lia). reflexivity.
  - replace (48 <=? c) with true by (symmetry; apply Z.leb_le; lia).
    replace (c <=? 57) with true by (symmetry; apply Z.leb_le; lia).
    rewrite !orb_true_r. reflexivity.
Qed.

(** * Variable-length integers, as mathematics *)
Fixpoint vi (f : nat) (bias q k : Z) : list Z :=
  match f with
  | O => []
  | S f => let t := thresh k bias in
           if q <? t then [q]
           else (t + (q - t) mod (36 - t)) :: vi f bias ((q - t) / (36 - t)) (k + 36)
  end.

Lemma div_step : forall q t, 1 <= t <= 26 -> t <= q ->
  0 <= (q - t) / (36 - t) /\ 10 * ((q - t) / (36 - t)) <= q - t /\
  (q - t) / (36 - t) * (36 - t) + (q - t) mod (36 - t) = q - t /\
  0 <= (q - t) mod (36 - t) < 36 - t.
Proof.
  intros. pose proof (Z.div_mod (q-t) (36-t) ltac:(lia)).
  pose proof (Z.mod_pos_bound (q-t) (36-t) ltac:(lia)).
  assert (0 <= (q-t)/(36-t)) by (apply Z.div_pos; lia).
  assert (10 * ((q-t)/(36-t)) <= (36 - t) * ((q-t)/(36-t))) by (apply Z.mul_le_mono_nonneg_r; lia).
  repeat split; lia.
Qed.

Lemma enc_varint_spec : forall f cap mo o bias q k,
  bias_ok bias -> mo <= cap -> 0 <= q < 10 ^ Z.of_nat f -> 0 <= k -> k + 36 * Z.of_nat f < two32 ->
  enc_varint (S f) cap mo o bias q k =
    (let r := o ++ map encode_digit (vi (S f) bias q k) in
     if zlen r <=? mo then Ok r else Fail IDN2_PUNYCODE_BIG_OUTPUT)
  /\ Forall (fun d => 0 <= d < 36) (vi (S f) bias q k) /\ vi (S f) bias q k <> [].
Proof.
  induction f; intros cap mo o bias q k Hb Hc Hq Hk Hkf.
  - change (Z.of_nat 0) with 0 in *. simpl Z.pow in Hq.
    pose proof (thresh_range k bias Hb ltac:(lia)) as T.
    cbn [enc_varint vi]. assert (q = 0) by lia. subst q.
    destruct (0 <? thresh k bias) eqn:E; zb; [|lia].
    split; [|split; [repeat constructor; lia|discriminate]].
    cbn [map]. cbv zeta. rewrite zlen_app, zlen_cons, zlen_nil.
    destruct (mo <=? zlen o) eqn:E2; zb.
    + destruct (_ <=? mo) eqn:E3; zb; [lia|reflexivity].
    + destruct (_ <=? mo) eqn:E3; zb; [|lia]. unfold put.
      destruct (zlen o <? cap) eqn:E4; zb; [reflexivity|lia].
  - rewrite Nat2Z.inj_succ in *. rewrite Z.pow_succ_r in Hq by lia.
    pose proof (thresh_range k bias Hb ltac:(lia)) as T.
    remember (S f) as g. cbn [enc_varint vi].
    assert (ND : zlen o >= mo -> forall l, l <> [] -> (zlen (o ++ map encode_digit l) <=? mo) = false).
    { intros HH l Hl. rewrite zlen_app, zlen_map. destruct l; [congruence|]. rewrite zlen_cons.
      pose proof (zlen_nonneg _ l). apply Z.leb_gt. lia. }
    destruct (q <? thresh k bias) eqn:E; zb.
    + split; [|split; [repeat constructor; lia|discriminate]].
      cbn [map]. cbv zeta. rewrite zlen_app, zlen_cons, zlen_nil.
      destruct (mo <=? zlen o) eqn:E2; zb.
      * destruct (_ <=? mo) eqn:E3; zb; [lia|reflexivity].
      * destruct (_ <=? mo) eqn:E3; zb; [|lia]. unfold put.
        destruct (zlen o <? cap) eqn:E4; zb; [reflexivity|lia].
    + rewrite (u32_id (36 - _)) by (unfold two32; lia).
      rewrite (u32_id (k + 36)) by lia.
      destruct (36 - thresh k bias =? 0) eqn:E3; zb; [lia|].
      set (t := thresh k bias) in *.
      destruct (div_step q t) as (D1 & D2 & D3 & D4); [lia|lia|].
      subst g.
      destruct (IHf cap mo (o ++ [encode_digit (t + (q - t) mod (36 - t))]) bias ((q - t) / (36 - t)) (k + 36))
        as (I1 & I2 & I3); [auto|lia|lia|lia|lia|].
      split; [|split].
      * cbv zeta. cbv zeta in I1. cbn [map].
        destruct (mo <=? zlen o) eqn:E2; zb.
        -- pose proof (ND ltac:(lia) ((t + (q - t) mod (36 - t)) :: vi (S f) bias ((q - t) / (36 - t)) (k + 36)) ltac:(discriminate)) as N.
           cbn [map] in N. cbn [app]. rewrite N. reflexivity.
        -- unfold put. destruct (zlen o <? cap) eqn:E4; zb; [|lia]. cbn [bind].
           rewrite I1. rewrite <- app_assoc. reflexivity.
      * constructor; [lia|exact I2].
      * discriminate.
Qed.

(** Decoding what [vi] produced. *)
Lemma dec_varint_vi : forall f bias q k i w r,
  bias_ok bias -> 0 <= q < 10 ^ Z.of_nat f -> 0 <= k -> k + 36 * Z.of_nat f < two32 ->
  0 <= i <= maxint -> 1 <= w <= maxint ->
  (i + q * w <= maxint /\
   dec_varint (map encode_digit (vi (S f) bias q k) ++ r) bias i w k = Ok (i + q * w, r))
  \/ ((maxint < i + q * w \/ maxint < 35 * (q * w)) /\
      dec_varint (map encode_digit (vi (S f) bias q k) ++ r) bias i w k = Fail IDN2_PUNYCODE_OVERFLOW).
Proof.
  induction f; intros bias q k i w r Hb Hq Hk Hkf Hi Hw.
  - left. change (Z.of_nat 0) with 0 in *. simpl Z.pow in Hq. assert (q = 0) by lia. subst q.
    pose proof (thresh_range k bias Hb ltac:(lia)) as T.
    cbn [vi]. destruct (0 <? thresh k bias) eqn:E; zb; [|lia].
    cbn [map app dec_varint]. rewrite decode_encode_digit by lia.
    destruct (36 <=? 0) eqn:E1; zb; [lia|].
    destruct (w =? 0) eqn:E2; zb; [lia|].
    destruct (_ / w <? 0) eqn:E3; zb.
    { exfalso. pose proof (Z.div_pos (maxint - i) w ltac:(lia) ltac:(lia)). lia. }
    destruct (0 <? thresh k bias) eqn:E4; zb; [|lia].
    rewrite (u32_id (0 * w)) by (unfold two32; lia).
    rewrite u32_id by (unfold two32, maxint in *; lia). split; [lia|reflexivity].
  - rewrite Nat2Z.inj_succ in *. rewrite Z.pow_succ_r in Hq by lia.
    pose proof (thresh_range k bias Hb ltac:(lia)) as T.
    remember (S f) as g. cbn [vi].
    assert (0 <= q * w) by (apply Z.mul_nonneg_nonneg; lia).
    destruct (q <? thresh k bias) eqn:E; zb.
    + cbn [map app dec_varint]. rewrite decode_encode_digit by lia.
      destruct (36 <=? q) eqn:E1; zb; [lia|].
      destruct (w =? 0) eqn:E2; zb; [lia|].
      destruct (_ / w <? q) eqn:E3; zb.
      { right. split; [|reflexivity]. left. apply lt_div in E3; lia. }
      left. apply le_div in E3; [|lia].
      destruct (q <? thresh k bias) eqn:E4; zb; [|lia].
      rewrite (u32_id (q * w)) by (unfold two32, maxint in *; lia).
      rewrite u32_id by (unfold two32, maxint in *; lia). split; [lia|reflexivity].
    + set (t := thresh k bias) in *.
      destruct (div_step q t) as (D1 & D2 & D3 & D4); [lia|lia|].
      set (q' := (q - t) / (36 - t)) in *. set (m := (q - t) mod (36 - t)) in *.
      cbn [map app dec_varint]. fold t. rewrite decode_encode_digit by lia.
      assert (E0 : q = t + m + q' * (36 - t)) by lia.
      assert (E00 : 0 <= q' * (36 - t)) by (apply Z.mul_nonneg_nonneg; lia).
      assert (E5 : 0 <= (t + m) * w <= q * w).
      { split. apply Z.mul_nonneg_nonneg; lia. apply Z.mul_le_mono_nonneg_r; lia. }
      destruct (36 <=? t + m) eqn:E1; zb; [lia|].
      destruct (w =? 0) eqn:E2; zb; [lia|].
      destruct (_ / w <? t + m) eqn:E3; zb.
      { right. split; [|reflexivity]. left. apply lt_div in E3; lia. }
      apply le_div in E3; [|lia].
      destruct (t + m <? t) eqn:E4; zb; [lia|].
      rewrite (u32_id (36 - t)) by (unfold two32; lia).
      destruct (36 - t =? 0) eqn:E6; zb; [lia|].
      rewrite (u32_id ((t + m) * w)) by (unfold two32, maxint in *; lia).
      rewrite (u32_id (i + _)) by (unfold two32, maxint in *; lia).
      destruct (maxint / (36 - t) <? w) eqn:E7; zb.
      * right. split; [|reflexivity]. right.
        assert (maxint < w * (36 - t)) by (apply lt_div; lia).
        assert (w * (36 - t) <= w * 35) by (apply Z.mul_le_mono_nonneg_l; lia).
        assert (w * 1 <= w * q) by (apply Z.mul_le_mono_nonneg_l; lia). lia.
      * assert (w * (36 - t) <= maxint) by (apply le_div; lia).
        assert (1 <= w * (36 - t)) by (assert (1 * 1 <= w * (36 - t)) by (apply Z.mul_le_mono_nonneg; lia); lia).
        assert (EQ : (t + m) * w + q' * (w * (36 - t)) = q * w).
        { transitivity ((t + m + q' * (36 - t)) * w); [ring|]. rewrite <- E0. reflexivity. }
        rewrite (u32_id (w * _)) by (unfold two32, maxint in *; lia).
        rewrite (u32_id (k + 36)) by lia. subst g.
        destruct (IHf bias q' (k + 36) (i + (t + m) * w) (w * (36 - t)) r) as [[I0 I]|[I1 I2]];
          [auto|lia|lia|lia|lia|lia| |].
        -- left. split; [lia|]. rewrite I. f_equal. f_equal. lia.
        -- right. split; [|exact I2]. lia.
Qed.

(** The weight bounds the number of digits read so far. *)
Definition kw (k w : Z) := 0 <= k <= 36 * (1 + Z.log2 w).
Lemma kw_bound : forall k w, kw k w -> 1 <= w <= maxint -> 0 <= k <= 1152.
Proof.
  unfold kw. intros. assert (Z.log2 w <= Z.log2 maxint) by (apply Z.log2_le_mono; lia).
  change (Z.log2 maxint) with 31 in *. lia.
Qed.
Lemma kw_step : forall k w c, kw k w -> 1 <= w -> 2 <= c -> kw (k + 36) (w * c).
Proof.
  unfold kw. intros. assert (Z.log2 (2 * w) <= Z.log2 (w * c)) by (apply Z.log2_le_mono; nia).
  rewrite Z.log2_double in * by lia. lia.
Qed.

(** Whatever the decoder accepts is the [vi] form of the value it read, up to
    the choice of digit characters. *)
Lemma dec_varint_inv : forall inp bias i w k i' r,
  bias_ok bias -> kw k w ->
  0 <= i <= maxint -> 1 <= w <= maxint ->
  dec_varint inp bias i w k = Ok (i', r) ->
  exists q ds, inp = ds ++ r /\ ds <> [] /\ i' = i + q * w /\ 0 <= q /\ i' <= maxint /\
    forall f, map decode_digit ds = vi (length ds + f) bias q k.
Proof.
  induction inp as [|c inp IH]; intros bias i w k i' r Hb Hk Hi Hw H; [discriminate|].
  cbn [dec_varint] in H. pose proof (kw_bound _ _ Hk Hw) as KB.
  pose proof (decode_digit_range c) as DR.
  pose proof (thresh_range k bias Hb ltac:(unfold two32; lia)) as T.
  set (d := decode_digit c) in *. set (t := thresh k bias) in *.
  destruct (36 <=? d) eqn:E1; zb; [lia|].
  destruct (w =? 0) eqn:E2; zb; [lia|].
  destruct (_ / w <? d) eqn:E3; zb; [discriminate|].
  assert (d * w <= maxint - i).
  { apply le_div; lia. }
  assert (0 <= d * w) by (apply Z.mul_nonneg_nonneg; lia).
  rewrite (u32_id (d * w)) in H by (unfold two32, maxint in *; lia).
  rewrite (u32_id (i + _)) in H by (unfold two32, maxint in *; lia).
  destruct (d <? t) eqn:E4; zb.
  - inversion H; subst. exists d, [c]. repeat split; try lia; try discriminate.
    intros f. cbn [length Nat.add vi map]. fold t. fold d.
    destruct (d <? t) eqn:E5; zb; [reflexivity|lia].
  - rewrite (u32_id (36 - t)) in H by (unfold two32; lia).
    destruct (36 - t =? 0) eqn:E6; zb; [lia|].
    destruct (maxint / (36 - t) <? w) eqn:E7; zb; [discriminate|].
    assert (w * (36 - t) <= maxint).
    { apply le_div; lia. }
    assert (1 <= w * (36 - t)) by (assert (1 * 1 <= w * (36 - t)) by (apply Z.mul_le_mono_nonneg; lia); lia).
    rewrite (u32_id (w * _)) in H by (unfold two32, maxint in *; lia).
    rewrite (u32_id (k + 36)) in H by (unfold two32; lia).
    apply IH in H; [|auto|apply kw_step; auto; lia|lia|lia].
    destruct H as (q' & ds & Hi' & Hne & Hq & Hq0 & Hmx & Hds).
    exists (d + q' * (36 - t)), (c :: ds).
    assert (0 <= q' * (36 - t)) by (apply Z.mul_nonneg_nonneg; lia).
    repeat split; try lia; try discriminate.
    + simpl. now rewrite Hi'.
    + intros f. cbn [length Nat.add vi map]. fold t. fold d.
      destruct (_ <? t) eqn:E8; zb; [lia|].
      replace (d + q' * (36 - t) - t) with ((d - t) + q' * (36 - t)) by lia.
      rewrite Z.mod_add, Z.div_add by lia.
      rewrite (Z.mod_small (d - t)), (Z.div_small (d - t)) by lia.
      rewrite Z.add_0_l. f_equal. lia. apply Hds.
Qed.

(** The digit sequence does not depend on the fuel. *)
Lemma vi_fuel : forall f g bias q k,
  bias_ok bias -> 0 <= q < 10 ^ Z.of_nat f -> 0 <= k -> k + 36 * Z.of_nat f < two32 ->
  vi (S f) bias q k = vi (S g + f) bias q k.
Proof.
  induction f; intros g bias q k Hb Hq Hk Hkf.
  - change (Z.of_nat 0) with 0 in *. simpl Z.pow in Hq. assert (q = 0) by lia. subst q.
    pose proof (thresh_range k bias Hb ltac:(lia)) as T.
    cbn [vi Nat.add]. destruct (0 <? thresh k bias) eqn:E; zb; [reflexivity|lia].
  - rewrite Nat2Z.inj_succ in *. rewrite Z.pow_succ_r in Hq by lia.
    pose proof (thresh_range k bias Hb ltac:(lia)) as T.
    replace (S g + S f)%nat with (S (S g + f)) by lia.
    remember (S f) as x. remember (S g + f)%nat as y. cbn [vi].
    destruct (q <? thresh k bias) eqn:E; zb; [reflexivity|].
    destruct (div_step q (thresh k bias)) as (D1 & D2 & D3 & D4); [lia|lia|].
    f_equal. subst. apply IHf; auto; lia.
Qed.

Lemma vi_nonempty : forall f bias q k, vi (S f) bias q k <> [].
Proof. intros. cbn [vi]. destruct (q <? _); discriminate. Qed.

Lemma dec_varint_safe : forall inp bias i w k,
  bias_ok bias -> kw k w ->
  0 <= i <= maxint -> 1 <= w <= maxint ->
  match dec_varint inp bias i w k with
  | Ok (i', r) => exists ds, inp = ds ++ r /\ ds <> [] /\ i <= i' <= maxint
  | Fail rc => rc = IDN2_PUNYCODE_BAD_INPUT \/ rc = IDN2_PUNYCODE_OVERFLOW
  | _ => False
  end.
Proof.
  induction inp as [|c inp IH]; intros bias i w k Hb Hk Hi Hw; [simpl; auto|].
  cbn [dec_varint]. pose proof (kw_bound _ _ Hk Hw) as KB.
  pose proof (decode_digit_range c) as DR.
  pose proof (thresh_range k bias Hb ltac:(unfold two32; lia)) as T.
  set (d := decode_digit c) in *. set (t := thresh k bias) in *.
  destruct (36 <=? d) eqn:E1; zb; [lia|].
  destruct (w =? 0) eqn:E2; zb; [lia|].
  destruct (_ / w <? d) eqn:E3; zb; [auto|].
  assert (d * w <= maxint - i).
  { apply le_div; lia. }
  assert (0 <= d * w) by (apply Z.mul_nonneg_nonneg; lia).
  rewrite (u32_id (d * w)) by (unfold two32, maxint in *; lia).
  rewrite (u32_id (i + _)) by (unfold two32, maxint in *; lia).
  destruct (d <? t) eqn:E4; zb.
  - exists [c]. repeat split; try discriminate; lia.
  - rewrite (u32_id (36 - t)) by (unfold two32; lia).
    destruct (36 - t =? 0) eqn:E6; zb; [lia|].
    destruct (maxint / (36 - t) <? w) eqn:E7; zb; [auto|].
    assert (w * (36 - t) <= maxint).
    { apply le_div; lia. }
    assert (1 <= w * (36 - t)) by (assert (1 * 1 <= w * (36 - t)) by (apply Z.mul_le_mono_nonneg; lia); lia).
    rewrite (u32_id (w * _)) by (unfold two32, maxint in *; lia).
    rewrite (u32_id (k + 36)) by (unfold two32; lia).
    specialize (IH bias (i + d * w) (w * (36 - t)) (k + 36)).
    destruct (dec_varint inp _ _ _ _) as [[i' r]|rc| |].
    + destruct IH as (ds & I1 & I2 & I3); [auto|apply kw_step; auto; lia|lia|lia|].
      exists (c :: ds). repeat split; try discriminate; try lia. simpl. now rewrite I1.
    + apply IH; auto; try apply kw_step; auto; lia.
    + apply IH; auto; try apply kw_step; auto; lia.
    + apply IH; auto; try apply kw_step; auto; lia.
Qed.
