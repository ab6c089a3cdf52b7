(** Everything RFC 3492 decodes (to a label of at most 109 code points that the
    library lets through) is decoded by the model, to the same result. *)
From Verif Require Import Base Puny PunyBase PunyRT PunyDec PunyInv SpecPuny PunyRfc PunyTop.

Lemma rfc_digit_decode : forall c d, rfc_digit (canon_char c) d -> decode_digit c = d /\ 0 <= d < 36.
Proof.
  intros c d H. remember (canon_char c) as c' eqn:E. unfold canon_char in E.
  unfold decode_digit.
  destruct H as [d H|d H|d H]; destruct ((65 <=? c) && (c <=? 90)) eqn:E1; try destruct (c =? 95) eqn:E2;
    zb; destruct ((97 <=? c) && (c <=? 122)) eqn:E3; destruct ((48 <=? c) && (c <=? 57)) eqn:E4;
    zb; rewrite ?andb_false_iff in *; zb; try (split; lia).
  all: repeat match goal with H : _ \/ _ |- _ => destruct H end; zb; try (split; lia).
Qed.

Lemma rfc_varint_nonneg : forall bias k s v, rfc_varint bias k s v -> 0 <= v.
Proof.
  induction 1 as [k c d Hd Ht|k c d s v Hd Ht H IH].
  - destruct Hd; lia.
  - assert (0 <= d) by (destruct Hd; lia). unfold rfc_t.
    assert (0 <= (36 - Z.max 1 (Z.min 26 (k - bias))) * v) by (apply Z.mul_nonneg_nonneg; lia). lia.
Qed.

Lemma rfc_varint_ne : forall bias k s v, rfc_varint bias k s v -> s <> [].
Proof. induction 1; discriminate. Qed.

(** 2^32 / 35, rounded down. *)
Definition vbound : Z := 122713351.

Lemma dec_varint_rfc : forall bias k s v, rfc_varint bias k s v -> forall t r i w,
  s = map canon_char t -> bias_ok bias -> kw k w -> 0 <= i -> 1 <= w <= maxint -> i + v * w <= vbound ->
  dec_varint (t ++ r) bias i w k = Ok (i + v * w, r).
Proof.
  intros bias k s v H. induction H as [k c d Hd Ht|k c d s v Hd Ht H IH]; intros t r i w Et Hb Hk Hi Hw Hv.
  - destruct t as [|c0 [|? ?]]; try discriminate. cbn [map] in Et. injection Et as Ec. rewrite Ec in Hd.
    apply rfc_digit_decode in Hd. destruct Hd as [Hd Dr].
    cbn [app dec_varint]. rewrite Hd.
    pose proof (kw_bound _ _ Hk Hw) as KB. rewrite thresh_eq by (auto; unfold two32; lia).
    fold (rfc_t k bias). destruct (36 <=? d) eqn:E1; zb; [lia|]. destruct (w =? 0) eqn:E2; zb; [lia|].
    assert (0 <= d * w) by (apply Z.mul_nonneg_nonneg; lia).
    destruct (_ / w <? d) eqn:E3; zb.
    { apply lt_div in E3; unfold vbound, maxint in *; lia. }
    destruct (d <? rfc_t k bias) eqn:E4; zb; [|lia].
    rewrite (u32_id (d * w)) by (unfold two32, vbound in *; lia).
    rewrite u32_id by (unfold two32, vbound in *; lia). reflexivity.
  - destruct t as [|c0 t]; try discriminate. cbn [map] in Et.
    assert (Ec : c = canon_char c0) by congruence. assert (Es : s = map canon_char t) by congruence. clear Et. rewrite Ec in Hd.
    apply rfc_digit_decode in Hd. destruct Hd as [Hd Dr].
    cbn [app dec_varint]. rewrite Hd.
    pose proof (kw_bound _ _ Hk Hw) as KB. rewrite thresh_eq by (auto; unfold two32; lia).
    fold (rfc_t k bias). pose proof (rfc_varint_nonneg _ _ _ _ H) as V0.
    assert (T : 1 <= rfc_t k bias <= 26) by (unfold rfc_t; lia).
    set (tt := rfc_t k bias) in *.
    destruct (36 <=? d) eqn:E1; zb; [lia|]. destruct (w =? 0) eqn:E2; zb; [lia|].
    assert (EQ : (d + (36 - tt) * v) * w = d * w + v * (w * (36 - tt))) by ring.
    assert (P1 : w * 1 <= d * w) by (rewrite (Z.mul_comm d); apply Z.mul_le_mono_nonneg_l; lia).
    assert (P2 : 0 <= v * (w * (36 - tt))) by (apply Z.mul_nonneg_nonneg; [lia|apply Z.mul_nonneg_nonneg; lia]).
    destruct (_ / w <? d) eqn:E3; zb.
    { apply lt_div in E3; unfold vbound, maxint in *; lia. }
    destruct (d <? tt) eqn:E4; zb; [lia|].
    rewrite (u32_id (36 - tt)) by (unfold two32; lia).
    destruct (36 - tt =? 0) eqn:E5; zb; [lia|].
    assert (P3 : w * (36 - tt) <= w * 35) by (apply Z.mul_le_mono_nonneg_l; lia).
    assert (P4 : w * 1 <= w * (36 - tt)) by (apply Z.mul_le_mono_nonneg_l; lia).
    destruct (maxint / (36 - tt) <? w) eqn:E7; zb.
    { apply lt_div in E7; [|lia]. unfold vbound, maxint in *; lia. }
    rewrite (u32_id (d * w)) by (unfold two32, vbound in *; lia).
    rewrite (u32_id (i + d * w)) by (unfold two32, vbound in *; lia).
    rewrite (u32_id (w * _)) by (unfold two32, vbound in *; lia).
    rewrite (u32_id (k + 36)) by (unfold two32; lia).
    rewrite (IH t r (i + d * w) (w * (36 - tt))); auto.
    + f_equal. f_equal. lia.
    + apply kw_step; auto; lia.
    + lia.
    + unfold vbound, maxint in *. lia.
    + lia.
Qed.

Lemma rfc_adapt_loop_fun : forall d b1, rfc_adapt_loop d b1 -> forall b2, rfc_adapt_loop d b2 -> b1 = b2.
Proof.
  induction 1 as [d H|d b H H1 IH]; intros b2 H2.
  - inversion H2 as [d' H'|d' b' H' H'']; [reflexivity|lia].
  - inversion H2 as [d' H'|d' b' H' H'']; [lia|]. f_equal. auto.
Qed.

Lemma rfc_steps_grow : forall o n i bias s L, rfc_steps o n i bias s L ->
  zlen o <= zlen L /\ (forall x, In x o -> In x L).
Proof.
  induction 1 as [|o n i bias s rest q bias' a b L n' i' H1 H2 H3 H4 H5 H6 H7 [I1 I2]].
  - split; [lia|auto].
  - rewrite H4. rewrite zlen_app, zlen_cons in I1. rewrite zlen_app. split; [lia|].
    intros x Hx. apply I2. apply in_app_or in Hx. apply in_or_app. destruct Hx; [auto|right; right; auto].
Qed.

Lemma map_eq_app' : forall (f : Z -> Z) l a b, a ++ b = map f l -> exists l1 l2, l = l1 ++ l2 /\ a = map f l1 /\ b = map f l2.
Proof.
  intros f l a. revert l. induction a as [|x a IH]; intros l b H; cbn [app] in H.
  - exists [], l. auto.
  - destruct l as [|y l]; [discriminate|]. cbn [map] in H.
    assert (Ex : x = f y) by congruence. assert (Er : a ++ b = map f l) by congruence.
    destruct (IH l b Er) as (l1 & l2 & A & B & C). exists (y :: l1), l2. subst. auto.
Qed.

Lemma steps_D : forall o n i bias s L, rfc_steps o n i bias s L -> forall t cap mo,
  s = map canon_char t -> bias_ok bias -> 0 <= i <= zlen o -> 128 <= n <= 1114111 ->
  Forall permitted L -> zlen L <= mo -> zlen L <= 109 -> mo <= cap ->
  D cap mo t o n i bias = Ok L.
Proof.
  intros o n i bias s L H.
  induction H as [o n i bias|o n i bias s rest q bias' a b L n' i' H1 H2 H3 H4 H5 H6 H7 IH];
    intros t cap mo Et Hb Hi Hn HP HL1 HL2 Hcap.
  - destruct t; [reflexivity|discriminate].
  - apply map_eq_app' in Et. destruct Et as (t1 & t2 & -> & E1 & E2).
    pose proof (rfc_steps_grow _ _ _ _ _ _ H7) as [G1 G2].
    assert (ZO : zlen (a ++ n' :: b) = zlen o + 1) by (rewrite H4, !zlen_app, zlen_cons; lia).
    rewrite ZO in G1. pose proof (zlen_nonneg _ o) as Z0.
    assert (HN : permitted n').
    { rewrite Forall_forall in HP. apply HP, G2, in_or_app. right. left. reflexivity. }
    destruct HN as [HN1 HN2].
    pose proof (rfc_varint_nonneg _ _ _ _ H1) as Q0.
    assert (0 <= (i + q) / (zlen o + 1)) by (apply Z.div_pos; lia).
    pose proof (Z.div_mod (i + q) (zlen o + 1) ltac:(lia)) as DM.
    pose proof (Z.mod_pos_bound (i + q) (zlen o + 1) ltac:(lia)) as DB.
    rewrite <- H3 in DM, DB.
    assert (QB : i + q <= vbound).
    { assert ((zlen o + 1) * ((i + q) / (zlen o + 1)) <= 109 * 1114111) by (apply Z.mul_le_mono_nonneg; lia).
      unfold vbound. lia. }
    assert (NE : t1 ++ t2 <> []).
    { apply rfc_varint_ne in H1. destruct t1; [cbn [map] in E1; congruence|discriminate]. }
    rewrite D_step by auto. cbv zeta.
    rewrite (dec_varint_rfc bias 36 s q H1 t1 t2 i 1 E1 Hb) by (try (unfold kw; cbn; lia); unfold maxint; lia).
    cbn [bind]. rewrite Z.mul_1_r.
    rewrite (u32_id (zlen o + 1)) by (unfold two32; lia).
    replace (i + q - i) with q by lia.
    rewrite (u32_id q) by (unfold two32, vbound in *; lia).
    destruct (adapt_ok q (zlen o + 1) (i =? 0)) as (b2 & A1 & A2); [unfold two32, vbound in *; lia|lia|].
    rewrite A1. cbn [bind].
    assert (EB : b2 = bias').
    { apply adapt_rfc in A1; [|unfold maxint, vbound in *; lia|lia]. unfold rfc_adapt in *. cbv zeta in *.
      exact (rfc_adapt_loop_fun _ _ A1 _ H6). }
    subst b2.
    destruct (zlen o + 1 =? 0) eqn:E5; zb; [lia|].
    rewrite (u32_id (maxint - n)) by (unfold two32, maxint in *; lia).
    destruct (maxint - n <? (i + q) / (zlen o + 1)) eqn:E6; zb; [unfold maxint in *; lia|].
    rewrite <- H2, <- H3. rewrite (u32_id n') by (unfold two32; lia).
    destruct (1114111 <? n') eqn:E7; zb; [lia|]. cbn [orb].
    destruct ((55296 <=? n') && (n' <=? 56319)) eqn:E8; zb; [tauto|].
    destruct (mo <=? zlen o) eqn:E9; zb; [lia|].
    rewrite insert_at_ok by lia. cbn [bind].
    rewrite (u32_id (i' + 1)) by (unfold two32; lia).
    assert (EI : ins o i' n' = a ++ n' :: b).
    { unfold ins. rewrite H4. rewrite <- H5. unfold zlen. rewrite Nat2Z.id.
      rewrite firstn_app, skipn_app, Nat.sub_diag, firstn_all, skipn_all. cbn [firstn skipn app].
      now rewrite app_nil_r. }
    rewrite EI. apply IH; auto; try lia.
Qed.

Lemma dec_check_none : forall l j b, Forall (fun c => dec_basic c = true) l -> ~ In 45 l -> dec_check l j b = Ok b.
Proof.
  induction l as [|c l IH]; intros j b H HN; cbn [dec_check]; auto. inversion H as [|? ? Hc Hl]; subst. rewrite Hc.
  destruct (c =? delimiter) eqn:E; [apply Z.eqb_eq in E; exfalso; apply HN; left; exact E|].
  apply IH; auto. intros X. apply HN. right. auto.
Qed.

Lemma ldhu_dec_basic : forall s, Forall ldh_or_underscore s -> Forall (fun c => dec_basic c = true) s.
Proof. intros s H. eapply Forall_impl; [|exact H]. cbv beta. intros c Hc. apply ldhu_basic. exact Hc. Qed.

(** The two forms of input. *)
Lemma decode_plain : forall s mo cap, Forall ldh_or_underscore s -> ~ In 45 s -> s <> [] -> 0 <= mo < maxint ->
  puny_decode s mo cap = D cap mo s [] initial_n 0 initial_bias.
Proof.
  intros s mo cap HF HN NE Hmo. unfold puny_decode. destruct s as [|c s]; [congruence|].
  rewrite dec_check_none by (auto using ldhu_dec_basic). cbn [bind].
  destruct (maxint <? mo) eqn:EM; zb; [lia|].
  unfold rd. cbn [Z.ltb Z.compare Z.to_nat nth_error bind].
  destruct (c =? delimiter) eqn:E; [apply Z.eqb_eq in E; exfalso; apply HN; left; exact E|].
  cbn [skipn]. reflexivity.
Qed.

Lemma decode_delim : forall bs t mo cap, Forall ldh_or_underscore (bs ++ 45 :: t) -> ~ In 45 t -> bs <> [] -> t <> [] ->
  zlen bs < mo < maxint -> mo <= cap -> zlen (bs ++ 45 :: t) < two64 ->
  puny_decode (bs ++ 45 :: t) mo cap = D cap mo t bs initial_n 0 initial_bias.
Proof.
  intros bs t mo cap HF HN NE NE2 Hmo Hcap Hz. unfold puny_decode.
  destruct (bs ++ 45 :: t) as [|c s] eqn:ES; [destruct bs; discriminate|]. rewrite <- ES in *.
  apply ldhu_dec_basic in HF. apply Forall_app in HF. destruct HF as [F1 F2]. inversion F2 as [|? ? F3 F4]; subst.
  destruct (dec_check_app bs (45 :: t) 0 0 F1) as (b' & E). rewrite E. cbn [dec_check]. rewrite F3.
  change (45 =? delimiter) with true. cbv iota. rewrite dec_check_none by auto. cbn [bind].
  destruct (maxint <? mo) eqn:EM; zb; [lia|]. rewrite Z.add_0_l.
  pose proof (zlen_nonneg _ bs).
  assert (RD : rd (bs ++ 45 :: t) (zlen bs) = Ok 45).
  { unfold rd. destruct (zlen bs <? 0) eqn:E1; zb; [lia|]. unfold zlen. rewrite Nat2Z.id, nth_error_app2, Nat.sub_diag by lia.
    reflexivity. }
  rewrite RD. cbn [bind]. change (45 =? delimiter) with true. cbv iota.
  rewrite zlen_app, zlen_cons in *. assert (1 <= zlen bs) by (destruct bs; [congruence|rewrite zlen_cons; pose proof (zlen_nonneg _ bs); lia]).
  assert (1 <= zlen t) by (destruct t; [congruence|rewrite zlen_cons; pose proof (zlen_nonneg _ t); lia]).
  rewrite u64_id by lia.
  destruct (zlen bs =? 0) eqn:E1; zb; [lia|]. cbn [orb].
  destruct (zlen bs =? _) eqn:E2; zb; [lia|].
  destruct (mo <=? zlen bs) eqn:E3; zb; [lia|].
  assert (EF : firstn (Z.to_nat (zlen bs)) (bs ++ 45 :: t) = bs).
  { unfold zlen. rewrite Nat2Z.id, firstn_app, Nat.sub_diag, firstn_all. cbn [firstn]. apply app_nil_r. }
  rewrite EF, dec_copy_ok by (rewrite zlen_nil; lia). cbn [bind app].
  assert (EK : skipn (Z.to_nat (zlen bs + 1)) (bs ++ 45 :: t) = t).
  { unfold zlen. replace (Z.to_nat (Z.of_nat (length bs) + 1)) with (length bs + 1)%nat by lia.
    rewrite skipn_app, skipn_all2 by lia. replace (length bs + 1 - length bs)%nat with 1%nat by lia. reflexivity. }
  rewrite EK. apply dec_main_fuel. rewrite app_length. cbn [length]. lia.
Qed.

Lemma in_dec45 : forall s : list Z, In 45 s \/ ~ In 45 s.
Proof. intros s. destruct (in_dec Z.eq_dec 45 s); auto. Qed.

Lemma last45 : forall s, In 45 s -> exists bs t, s = bs ++ 45 :: t /\ ~ In 45 t.
Proof.
  induction s as [|c s IH]; intros H; [destruct H|]. destruct (in_dec45 s) as [Hs|Hs].
  - destruct (IH Hs) as (bs & t & -> & N). exists (c :: bs), t. auto.
  - destruct H as [->|H]; [|contradiction]. exists [], s. auto.
Qed.

Lemma app45_inj : forall bs1 bs2 t1 t2 : list Z, bs1 ++ 45 :: t1 = bs2 ++ 45 :: t2 -> ~ In 45 t1 -> ~ In 45 t2 -> bs1 = bs2 /\ t1 = t2.
Proof.
  induction bs1 as [|x bs1 IH]; intros [|y bs2] t1 t2 H N1 N2; cbn [app] in H.
  - split; congruence.
  - exfalso. apply N1. assert (E : t1 = bs2 ++ 45 :: t2) by congruence. rewrite E. apply in_or_app. right. left. reflexivity.
  - exfalso. apply N2. assert (E : t2 = bs1 ++ 45 :: t1) by congruence. rewrite E. apply in_or_app. right. left. reflexivity.
  - assert (E1 : x = y) by congruence. assert (E2 : bs1 ++ 45 :: t1 = bs2 ++ 45 :: t2) by congruence.
    destruct (IH _ _ _ E2 N1 N2). subst. auto.
Qed.

Lemma canon_no45 : forall t, ~ In 45 t -> ~ In 45 (map canon_char t).
Proof.
  intros t H X. apply in_map_iff in X. destruct X as (c & E & Hc). unfold canon_char in E.
  destruct ((65 <=? c) && (c <=? 90)) eqn:E1; zb; [lia|]. destruct (c =? 95) eqn:E2; zb; [lia|]. subst. auto.
Qed.

(** The decoder accepts exactly what RFC 3492 decodes, up to spelling. *)
Lemma decode_complete : forall s mo cap L, 0 <= mo < 4294967295 -> mo <= cap -> zlen s < two64 ->
  Forall ldh_or_underscore s -> rfc_decodes (canon s) L -> Forall permitted L -> Exists (fun c => 128 <= c) L ->
  zlen L <= mo -> zlen L <= 109 -> puny_decode s mo cap = Ok L.
Proof.
  intros s mo cap L Hmo Hcap Hs HF HR HP HE HL1 HL2.
  destruct (in_dec45 s) as [Hin|Hno].
  - destruct (last45 s Hin) as (bs & t & -> & N). rewrite canon_delim in HR by auto.
    inversion HR as [s' L' N' ST E1 E2|bs' s' L' NE N' ST E1 E2]; subst.
    { exfalso. apply N'. apply in_or_app. right. left. reflexivity. }
    destruct (app45_inj bs' bs s' (map canon_char t)) as [-> ->]; auto using canon_no45.
    pose proof (rfc_steps_grow _ _ _ _ _ _ ST) as [G1 G2].
    assert (NT : t <> []).
    { intros ->. cbn [map] in ST. inversion ST as [|? ? ? ? s0 ? ? ? ? ? ? ? ? V]; subst.
      - apply Exists_exists in HE. destruct HE as (x & X1 & X2). apply Forall_app in HF. destruct HF as [HF _].
        rewrite Forall_forall in HF. apply HF in X1. unfold ldh_or_underscore in X1. lia.
      - apply rfc_varint_ne in V. destruct s0; [congruence|discriminate]. }
    assert (LT : zlen bs < zlen L).
    { inversion ST as [|? ? ? ? s0 rest0 q0 b0 a0 c0 ? n0 i0 V ? ? EA EL ? ST']; subst.
      - destruct t; [congruence|discriminate].
      - apply rfc_steps_grow in ST'. rewrite zlen_app, zlen_cons in *. lia. }
    rewrite decode_delim; auto; try (unfold maxint; lia).
    apply (steps_D _ _ _ _ _ _ ST); auto; unfold initial_n; try lia. exact bias0. pose proof (zlen_nonneg _ bs). lia.
  - rewrite canon_digits in HR by auto.
    inversion HR as [s' L' N' ST E1 E2|bs' s' L' NE N' ST E1 E2]; subst.
    2:{ exfalso. apply (canon_no45 s Hno). rewrite <- E1. apply in_or_app. right. left. reflexivity. }
    assert (NT : s <> []).
    { intros ->. cbn [map] in ST. inversion ST as [|? ? ? ? s0 ? ? ? ? ? ? ? ? V]; subst.
      - inversion HE.
      - apply rfc_varint_ne in V. destruct s0; [congruence|discriminate]. }
    rewrite decode_plain; auto; try (unfold maxint; lia).
    apply (steps_D _ _ _ _ _ _ ST); auto; unfold initial_n; try (rewrite ?zlen_nil; lia). exact bias0.
Qed.

Lemma canon_length : forall s, zlen (canon s) = zlen s.
Proof.
  induction s as [|c s IH]; auto. cbn [canon]. destruct (existsb (Z.eqb 45) (c :: s)).
  - rewrite !zlen_cons. lia.
  - apply zlen_map.
Qed.

Lemma D_canon_rfc : forall s mo cap L, 0 <= mo < 4294967295 -> mo <= cap -> zlen s < two64 ->
  puny_decode s mo cap = Ok L -> rfc_decodes (canon s) L.
Proof.
  intros s mo cap L Hmo Hcap Hs HD.
  destruct (puny_decode_inv s mo cap L) as (LD & bs & tail & A1 & A2 & A3 & A4 & A5); auto; try (unfold maxint; lia).
  assert (LT : Forall ldhu tail).
  { rewrite A1 in LD. apply Forall_app in LD. destruct LD as [_ LD]. apply Forall_app in LD. tauto. }
  (* the decoder only looks at digit values *)
  assert (VC : forall t bias i w k i' r, Forall ldhu t -> ~ In 45 t -> dec_varint t bias i w k = Ok (i', r) ->
    dec_varint (map canon_char t) bias i w k = Ok (i', map canon_char r)).
  { induction t as [|c t IH]; intros bias i w k i' r F N; cbn [dec_varint map]; [discriminate|].
    inversion F as [|? ? Fc Ft]; subst.
    assert (EC : decode_digit (canon_char c) = decode_digit c).
    { unfold canon_char, decode_digit.
      destruct ((65 <=? c) && (c <=? 90)) eqn:E1; zb.
      - destruct ((97 <=? c + 32) && (c + 32 <=? 122)) eqn:E2; zb; [|apply andb_false_iff in E2; destruct E2; zb; lia].
        destruct ((97 <=? c) && (c <=? 122)) eqn:E3; zb; [lia|].
        destruct ((48 <=? c) && (c <=? 57)) eqn:E4; zb; [lia|]. lia.
      - destruct (c =? 95) eqn:E2; zb; [subst c; reflexivity|]. rewrite E1. reflexivity. }
    rewrite EC. destruct (36 <=? decode_digit c); [discriminate|]. destruct (w =? 0); [discriminate|].
    destruct (_ <? decode_digit c); [discriminate|]. destruct (decode_digit c <? thresh k bias).
    - intros H. congruence.
    - destruct (_ =? 0); [discriminate|]. destruct (_ <? w); [discriminate|]. apply IH; auto. intros X. apply N. right. auto. }
  assert (DC : forall len t o n i bias, (length t <= len)%nat -> Forall ldhu t -> ~ In 45 t -> bias_ok bias -> 0 <= i <= zlen o -> 0 <= n <= 1114111 -> zlen o <= mo ->
    D cap mo t o n i bias = Ok L -> D cap mo (map canon_char t) o n i bias = Ok L).
  { induction len as [|len IH]; intros t o n i bias Hlen F N Hb Hi Hn Ho HD'.
    all: destruct t as [|c0 t0] eqn:EI; [exact HD'|].
    { cbn [length] in Hlen. lia. }
    rewrite <- EI in *.
    assert (NE : t <> []) by (rewrite EI; discriminate).
    rewrite D_step in HD' by auto. rewrite D_step by (rewrite EI; discriminate). cbv zeta in *.
    destruct (dec_varint t bias i 1 36) as [[i1 r]| | |] eqn:EV; cbn [bind] in HD'; try discriminate.
    destruct (dec_varint_inv t bias i 1 36 i1 r) as (q & ds & I1 & I2 & I3 & I4 & I5 & I6); auto;
      [unfold kw; cbn; lia|unfold maxint; lia|unfold maxint; lia|].
    rewrite (VC _ _ _ _ _ _ _ F N EV). cbn [bind].
    rewrite Z.mul_1_r in I3.
    rewrite (u32_id (i1 - i)) in * by (unfold two32, maxint in *; lia).
    rewrite (u32_id (zlen o + 1)) in * by (unfold two32; lia).
    destruct (adapt_ok (i1 - i) (zlen o + 1) (i =? 0)) as (b2 & B1 & B2); [unfold two32, maxint in *; lia|lia|].
    rewrite B1 in *. cbn [bind] in *.
    destruct (zlen o + 1 =? 0); [discriminate|].
    rewrite (u32_id (maxint - n)) in * by (unfold two32, maxint in *; lia).
    assert (0 <= i1 / (zlen o + 1)) by (apply Z.div_pos; lia).
    destruct (maxint - n <? i1 / (zlen o + 1)) eqn:E6; zb; [discriminate|].
    rewrite (u32_id (n + _)) in * by (unfold two32, maxint in *; lia).
    destruct (1114111 <? n + i1 / (zlen o + 1)) eqn:E7; zb; cbn [orb] in *; [discriminate|].
    destruct (_ && _); [discriminate|].
    destruct (mo <=? zlen o) eqn:E9; zb; [discriminate|].
    pose proof (Z.mod_pos_bound i1 (zlen o + 1) ltac:(lia)).
    rewrite insert_at_ok in * by lia. cbn [bind] in *.
    rewrite (u32_id (_ + 1)) in * by (unfold two32; lia).
    apply IH; auto; rewrite ?zlen_ins; try lia.
    - rewrite I1, app_length in Hlen. destruct ds; [congruence|]. cbn [length] in Hlen. lia.
    - rewrite I1 in F. apply Forall_app in F. tauto.
    - intros X. apply N. rewrite I1. apply in_or_app. auto. }
  assert (R : rfc_steps bs 128 0 72 (map canon_char tail) L).
  { apply (D_rfc (length tail) cap mo (map canon_char tail) bs 128 0 72 L); auto; try (unfold maxint; lia).
    - rewrite map_length. lia.
    - exact bias0.
    - pose proof (zlen_nonneg _ bs). lia.
    - apply Forall_forall. intros c Hc. apply in_map_iff in Hc. destruct Hc as (x & <- & Hx).
      rewrite Forall_forall in LT. apply LT in Hx as Hl.
      assert (x <> 45) by (intros ->; auto). unfold ldhu, canon_char in *.
      destruct ((65 <=? x) && (x <=? 90)) eqn:E1; zb; [lia|]. destruct (x =? 95) eqn:E2; zb; lia.
    - apply (DC (length tail)); auto; try lia. exact bias0. pose proof (zlen_nonneg _ bs). lia. }
  rewrite A1. destruct bs as [|x bs]; cbn [deli].
  - cbn [app]. rewrite canon_digits by auto. apply rfc_plain; auto using canon_no45.
  - change ([delimiter] ++ tail) with (45 :: tail). rewrite canon_delim by auto. apply rfc_delim; auto using canon_no45. discriminate.
Qed.

Lemma decode_iff : forall s mo cap L, 0 <= mo <= 109 -> mo <= cap -> zlen s < two64 ->
  (puny_decode s mo cap = Ok L <->
   Forall ldh_or_underscore s /\ rfc_decodes (canon s) L /\ Forall permitted L /\ Exists (fun c => 128 <= c) L /\ zlen L <= mo).
Proof.
  intros s mo cap L Hmo Hcap Hs. split.
  - intros H. pose proof (decode_safe s mo cap ltac:(lia) Hcap Hs) as S. rewrite H in S.
    destruct S as (S1 & S2 & S3 & S4 & S5 & S6).
    destruct (puny_decode_inv s mo cap L) as (LD & _); auto; try (unfold maxint; lia).
    split; [exact LD|]. split; [|auto]. apply (D_canon_rfc s mo cap L); auto; lia.
  - intros (H1 & H2 & H3 & H4 & H5). apply decode_complete; auto; lia.
Qed.

Lemma rfc_decodes_fun : forall s L1 L2, zlen s < two64 -> Forall ldh_or_underscore s -> canon s = s ->
  Forall permitted L1 -> Forall permitted L2 -> Exists (fun c => 128 <= c) L1 -> Exists (fun c => 128 <= c) L2 -> zlen L1 <= 109 -> zlen L2 <= 109 ->
  rfc_decodes s L1 -> rfc_decodes s L2 -> L1 = L2.
Proof.
  intros s L1 L2 Hs HF HC P1 P2 E1 E2 Z1 Z2 R1 R2. rewrite <- HC in R1, R2.
  pose proof (decode_complete s 109 109 L1 ltac:(lia) ltac:(lia) Hs HF R1 P1 E1 Z1 Z1) as D1.
  pose proof (decode_complete s 109 109 L2 ltac:(lia) ltac:(lia) Hs HF R2 P2 E2 Z2 Z2) as D2. congruence.
Qed.
