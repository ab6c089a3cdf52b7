(** The decoder model follows RFC 3492. *)
From Verif Require Import Base Puny PunyBase PunyRT PunyDec PunyInv SpecPuny.

Lemma adapt_loop_rfc : forall f k d b, 0 <= d < two32 -> 0 <= k -> k + 36 * Z.of_nat f + 36 < two32 ->
  adapt_loop f k d = Ok b -> exists b', b = k + b' /\ rfc_adapt_loop d b' /\ 0 <= b' <= 36 * Z.of_nat f.
Proof.
  induction f as [|f IH]; intros k d b Hd Hk Hkf H; cbn [adapt_loop] in H; [discriminate|].
  rewrite Nat2Z.inj_succ in *.
  destruct (455 <? d) eqn:E; zb.
  - rewrite u32_id in H by (unfold two32 in *; lia).
    assert (0 <= d / 35) by (apply Z.div_pos; lia).
    assert (d / 35 <= d) by (apply Z.div_le_upper_bound; lia).
    destruct (IH (k + 36) (d / 35) b) as (b' & A & B & C); auto; try lia.
    exists (36 + b'). split; [lia|]. split; [|lia]. apply rfc_al_step; auto.
  - rewrite (u32_id (d + 38)), (u32_id (36 * d)) in H by (unfold two32; lia).
    destruct (d + 38 =? 0) eqn:E2; zb; [lia|]. assert (b = u32 (k + 36 * d / (d + 38))) by congruence. subst b. clear H.
    assert (0 <= 36 * d / (d + 38)) by (apply Z.div_pos; lia).
    assert (36 * d / (d + 38) <= 36) by (apply Z.div_le_upper_bound; lia).
    exists (36 * d / (d + 38)). rewrite u32_id by (unfold two32 in *; lia).
    split; [lia|]. split; [|lia]. apply rfc_al_stop. exact E.
Qed.

Lemma adapt_rfc : forall d np first b, 0 <= d <= maxint -> 1 <= np ->
  adapt d np first = Ok b -> rfc_adapt d np first b.
Proof.
  intros d np first b Hd Hnp H. unfold adapt in H. unfold rfc_adapt.
  destruct (np =? 0) eqn:E; zb; [lia|].
  replace (Z.shiftr d 1) with (d / 2) in H by (rewrite Z.shiftr_div_pow2 by lia; reflexivity).
  set (x := if first then d / 700 else d / 2) in *. cbv zeta.
  assert (Hx : 0 <= x <= d / 2).
  { unfold x. assert (d / 700 <= d / 2) by (apply Z.div_le_compat_l; lia).
    assert (0 <= d / 700) by (apply Z.div_pos; lia). destruct first; lia. }
  assert (0 <= x / np) by (apply Z.div_pos; lia).
  assert (x / np <= x) by (apply Z.div_le_upper_bound; [lia|]; nia).
  assert (d / 2 * 2 <= d) by (pose proof (Z.mul_div_le d 2 ltac:(lia)); lia).
  rewrite u32_id in H by (unfold two32, maxint in *; lia).
  apply adapt_loop_rfc in H; [|unfold two32, maxint in *; lia|lia|vm_compute; reflexivity].
  destruct H as (b' & A & B & _).
  replace b with b' by lia. exact B.
Qed.

Lemma decode_digit_rfc : forall c, ldhu c -> c <> 45 -> c <> 95 -> rfc_digit c (decode_digit c).
Proof.
  intros c H1 H2 H3. unfold decode_digit.
  destruct ((97 <=? c) && (c <=? 122)) eqn:E1; zb.
  { replace c with (97 + (c - 97)) at 1 by lia. constructor. lia. }
  destruct ((48 <=? c) && (c <=? 57)) eqn:E2; zb.
  { replace c with (48 + ((c - 48 + 26) - 26)) at 1 by lia. constructor. lia. }
  destruct ((65 <=? c) && (c <=? 90)) eqn:E3; zb.
  { replace c with (65 + (c - 65)) at 1 by lia. constructor. lia. }
  unfold ldhu in H1. apply andb_false_iff in E1, E2, E3. zb. exfalso.
  destruct E1, E2, E3; zb; lia.
Qed.

Lemma cons_eq : forall (a b : Z) l m, a :: l = b :: m -> a = b /\ l = m.
Proof. intros a b l m H. split; congruence. Qed.

Lemma vi_rfc : forall ds f bias q k,
  bias_ok bias -> 0 <= k -> k + 36 * zlen ds < two32 -> 0 <= q ->
  Forall (fun c => ldhu c /\ c <> 45 /\ c <> 95) ds ->
  ds <> [] -> map decode_digit ds = vi (length ds + S f) bias q k ->
  rfc_varint bias k ds q.
Proof.
  induction ds as [|c ds IH]; intros f bias q k Hb Hk Hkl Hq HF NE H; [congruence|].
  inversion HF as [|? ? (F1 & F2 & F3) HF']; subst. rewrite zlen_cons in Hkl.
  pose proof (zlen_nonneg _ ds). cbn [length Nat.add map vi] in H.
  pose proof (thresh_range k bias Hb ltac:(lia)) as T.
  assert (TE : thresh k bias = rfc_t k bias) by (apply thresh_eq; auto; lia).
  destruct (q <? thresh k bias) eqn:E; zb; apply cons_eq in H; destruct H as [H2 H3].
  - apply map_eq_nil in H3. subst ds. rewrite <- H2 in *. constructor. now apply decode_digit_rfc. lia.
  - destruct (div_step q (thresh k bias)) as (D1 & D2 & D3 & D4); [lia|lia|].
    assert (NE' : ds <> []).
    { intros ->. cbn [length Nat.add map] in H3. pose proof (vi_nonempty f bias ((q - thresh k bias) / (36 - thresh k bias)) (k + 36)).
      congruence. }
    replace q with (decode_digit c + (36 - rfc_t k bias) * ((q - thresh k bias) / (36 - thresh k bias))).
    2:{ rewrite H2, <- TE. rewrite Z.mul_comm. lia. }
    constructor; [now apply decode_digit_rfc|lia|].
    eapply IH; eauto; lia.
Qed.

Lemma vi_length : forall f bias q k, bias_ok bias -> 0 <= q < 10 ^ Z.of_nat f -> 0 <= k ->
  k + 36 * Z.of_nat f < two32 -> forall g, (length (vi g bias q k) <= S f)%nat.
Proof.
  induction f as [|f IH]; intros bias q k Hb Hq Hk Hkf g.
  - simpl Z.pow in Hq. assert (q = 0) by lia. subst q.
    destruct g; cbn [vi length]; [lia|].
    pose proof (thresh_range k bias Hb ltac:(lia)) as T.
    destruct (0 <? thresh k bias) eqn:E; zb; cbn [length]; lia.
  - rewrite Nat2Z.inj_succ in *. rewrite Z.pow_succ_r in Hq by lia.
    pose proof (thresh_range k bias Hb ltac:(lia)) as T.
    destruct g; cbn [vi length]; [lia|].
    destruct (q <? thresh k bias) eqn:E; zb; cbn [length]; [lia|].
    destruct (div_step q (thresh k bias)) as (D1 & D2 & D3 & D4); [lia|lia|].
    specialize (IH bias ((q - thresh k bias) / (36 - thresh k bias)) (k + 36) Hb ltac:(lia) ltac:(lia) ltac:(lia) g). lia.
Qed.

Lemma D_rfc : forall len cap mo inp o n i bias L, (length inp <= len)%nat ->
  bias_ok bias -> 0 <= i <= zlen o -> 0 <= n <= 1114111 ->
  zlen o <= mo -> mo < maxint -> mo <= cap ->
  Forall (fun c => ldhu c /\ c <> 45 /\ c <> 95) inp ->
  D cap mo inp o n i bias = Ok L ->
  rfc_steps o n i bias inp L.
Proof.
  induction len as [|len IH]; intros cap mo inp o n i bias L Hlen Hb Hi Hn Ho Hmo Hcap HF HD.
  all: destruct inp as [|c0 inp0] eqn:EI;
    [unfold D in HD; cbn in HD; inversion HD; subst; constructor|].
  { cbn [length] in Hlen. lia. }
  rewrite <- EI in *.
  destruct (D_inv cap mo inp o n i bias) as [S|(rc & S & _)]; auto; try lia.
  { rewrite EI. discriminate. }
  2:{ rewrite S in HD. discriminate. }
  destruct S as (ds & rest & q & n' & i2 & bias' & S & SD). destruct S as
    [s1 s2 s3 s4 s5 s6 s7 s8 s9 s10 s11 s12].
  rewrite SD in HD. rewrite s1 in *. apply Forall_app in HF. destruct HF as [HF1 HF2].
  assert (DM : (i + q) / (zlen o + 1) = n' - n /\ (i + q) mod (zlen o + 1) = i2).
  { rewrite s5, Z.add_comm. split.
    - rewrite Z.div_add by lia. rewrite Z.div_small by lia. lia.
    - rewrite Z.mod_add by lia. apply Z.mod_small. lia. }
  destruct DM as [DM1 DM2].
  apply (rfc_step o n i bias ds rest q bias' (firstn (Z.to_nat i2) o) (skipn (Z.to_nat i2) o) L n' i2).
  - assert (LD : zlen ds <= 64).
    { pose proof (vi_length 63 bias q 36 Hb) as VL.
      assert (maxint < 10 ^ Z.of_nat 63) by (vm_compute; reflexivity).
      specialize (VL ltac:(lia) ltac:(lia) ltac:(vm_compute; reflexivity) (length ds + 0)%nat).
      rewrite <- (s3 0%nat), map_length in VL. unfold zlen. lia. }
    apply (vi_rfc ds 0%nat); auto; try lia. unfold two32. lia.
  - lia.
  - lia.
  - symmetry. apply firstn_skipn.
  - unfold zlen in *. rewrite firstn_length_le; lia.
  - apply adapt_rfc; auto; lia.
  - apply (IH cap mo rest (ins o i2 n') n' (i2 + 1) bias' L); auto; rewrite ?zlen_ins; try lia.
    + rewrite app_length in Hlen. destruct ds; [congruence|]. cbn [length] in Hlen. lia.
    + destruct s9. lia.
Qed.
