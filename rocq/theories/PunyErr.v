(** The decoder refuses with exactly the codes of SpecPunyErr.v. *)
From Verif Require Import Base Puny PunyBase PunyRT PunyDec PunyInv SpecPuny PunyRfc PunyTop PunyComplete PunyDet SpecPunyErr.

Definition ovg (bias k w i : Z) (inp : list Z) : Prop :=
  (exists s rest v x, inp = s ++ rest /\ s <> [] /\ rfc_more bias k s v x /\ (max32 < i + w * v \/ max32 < w * x)) \/
  (exists s rest q, inp = s ++ rest /\ rfc_varint bias k s q /\ max32 < i + w * q).
Lemma ovg_overflows : forall bias i inp, overflows bias i inp <-> ovg bias 36 1 i inp.
Proof.
  intros bias i inp. split.
  - intros [s rest v w M NE H|s rest q V H]; [left; exists s, rest, v, w|right; exists s, rest, q]; rewrite ?Z.mul_1_l; auto.
  - intros [(s & rest & v & x & -> & NE & M & H)|(s & rest & q & -> & V & H)]; rewrite ?Z.mul_1_l in H; [now apply (ov_more _ _ s rest v x)|now apply (ov_last _ _ s rest q)].
Qed.
Lemma cons_app : forall (c : Z) r s rest, s <> [] -> c :: r = s ++ rest -> exists s', s = c :: s' /\ r = s' ++ rest.
Proof. intros c r [|x s] rest NE H; [congruence|]. cbn [app] in H. assert (c = x) by congruence. subst x. exists s. split; congruence. Qed.
Lemma more_inv : forall bias k c s v x d, rfc_more bias k (c :: s) v x -> rfc_digit c d ->
  rfc_t k bias <= d /\ exists v' x', rfc_more bias (k + 36) s v' x' /\ v = d + (36 - rfc_t k bias) * v' /\ x = (36 - rfc_t k bias) * x'.
Proof.
  intros bias k c s v x d H D. inversion H as [|? ? d' ? v' x' D' T M]; subst. pose proof (digit_fun _ _ _ D D') as <-. split; [auto|]. eauto.
Qed.
Lemma varint_inv : forall bias k c s q d, rfc_varint bias k (c :: s) q -> rfc_digit c d ->
  (s = [] /\ q = d /\ d < rfc_t k bias) \/ (rfc_t k bias <= d /\ exists v, rfc_varint bias (k + 36) s v /\ q = d + (36 - rfc_t k bias) * v).
Proof.
  intros bias k c s q d H D. inversion H as [? ? d' D' T|? ? d' ? v D' T V]; subst; pose proof (digit_fun _ _ _ D D') as <-; [left; auto|right; eauto].
Qed.
Lemma more_nil : forall bias k v x, rfc_more bias k [] v x -> v = 0 /\ x = 1.
Proof. intros bias k v x H. inversion H. auto. Qed.
Lemma ovg_cons : forall bias k w i c r d, rfc_digit c d ->
  (ovg bias k w i (c :: r) <-> max32 < i + w * d \/ (rfc_t k bias <= d /\ (max32 < w * (36 - rfc_t k bias) \/ ovg bias (k + 36) (w * (36 - rfc_t k bias)) (i + w * d) r))).
Proof.
  intros bias k w i c r d D. set (t := rfc_t k bias). split.
  - intros [(s & rest & v & x & E & NE & M & H)|(s & rest & q & E & V & H)].
    + destruct (cons_app _ _ _ _ NE E) as (s' & -> & ->). destruct (more_inv _ _ _ _ _ _ _ M D) as (T & v' & x' & M' & -> & ->). fold t in T, H |- *.
      destruct s' as [|c' s'].
      * apply more_nil in M'. destruct M' as (-> & ->). replace (w * (d + (36 - t) * 0)) with (w * d) in H by ring. replace (w * ((36 - t) * 1)) with (w * (36 - t)) in H by ring. tauto.
      * right. split; [exact T|]. right. left. exists (c' :: s'), rest, v', x'. split; [reflexivity|]. split; [discriminate|]. split; [exact M'|].
        replace (i + w * d + w * (36 - t) * v') with (i + w * (d + (36 - t) * v')) by ring. replace (w * (36 - t) * x') with (w * ((36 - t) * x')) by ring. exact H.
    + destruct (cons_app _ _ _ _ (rfc_varint_ne _ _ _ _ V) E) as (s' & -> & ->). destruct (varint_inv _ _ _ _ _ _ V D) as [(-> & -> & T)|(T & v & V' & ->)]; [auto|].
      fold t in T, H |- *. right. split; [exact T|]. right. right. exists s', rest, v. split; [reflexivity|]. split; [exact V'|].
      replace (i + w * d + w * (36 - t) * v) with (i + w * (d + (36 - t) * v)) by ring. exact H.
  - intros [H|(T & [H|H])].
    + destruct (Z.lt_ge_cases d t) as [T|T].
      * right. exists [c], r, d. split; [reflexivity|]. split; [now constructor|exact H].
      * left. exists [c], r, (d + (36 - t) * 0), ((36 - t) * 1). split; [reflexivity|]. split; [discriminate|]. split; [constructor; [exact D|unfold t in T; lia|constructor]|].
        left. replace (d + (36 - t) * 0) with d by ring. exact H.
    + left. exists [c], r, (d + (36 - t) * 0), ((36 - t) * 1). split; [reflexivity|]. split; [discriminate|]. split; [constructor; [exact D|exact T|constructor]|].
      right. now rewrite Z.mul_1_r.
    + destruct H as [(s & rest & v & x & -> & NE & M & H)|(s & rest & q & -> & V & H)].
      * left. exists (c :: s), rest, (d + (36 - t) * v), ((36 - t) * x). split; [reflexivity|]. split; [discriminate|]. split; [now constructor|].
        replace (i + w * (d + (36 - t) * v)) with (i + w * d + w * (36 - t) * v) by ring. replace (w * ((36 - t) * x)) with (w * (36 - t) * x) by ring. exact H.
      * right. exists (c :: s), rest, (d + (36 - t) * q). split; [reflexivity|]. split; [now constructor|].
        replace (i + w * (d + (36 - t) * q)) with (i + w * d + w * (36 - t) * q) by ring. exact H.
Qed.
Lemma ovg_nil : forall bias k w i, ~ ovg bias k w i [].
Proof.
  intros bias k w i [(s & rest & v & x & E & NE & _)|(s & rest & q & E & V & _)]; symmetry in E; apply app_eq_nil in E; destruct E as (-> & _); [congruence|]. inversion V.
Qed.

Definition digits (inp : list Z) : Prop := Forall (fun c => rfc_digit c (decode_digit c)) inp.
Lemma dec_varint_cls : forall inp bias i w k, digits inp -> bias_ok bias -> kw k w -> 0 <= i <= maxint -> 1 <= w <= maxint ->
  match dec_varint inp bias i w k with
  | Ok (i1, rest) => ~ ovg bias k w i inp /\ exists s q, inp = s ++ rest /\ rfc_varint bias k s q /\ i1 = i + w * q /\ i1 <= maxint
  | Fail rc => (rc = IDN2_PUNYCODE_OVERFLOW /\ ovg bias k w i inp) \/ (rc = IDN2_PUNYCODE_BAD_INPUT /\ ~ ovg bias k w i inp /\ exists v x, rfc_more bias k inp v x)
  | _ => False
  end.
Proof.
  induction inp as [|c inp IH]; intros bias i w k DG Hb Hk Hi Hw.
  { cbn [dec_varint]. right. split; [reflexivity|]. split; [apply ovg_nil|]. exists 0, 1. constructor. }
  inversion DG as [|? ? D DG']; subst. cbn [dec_varint]. pose proof (kw_bound _ _ Hk Hw) as KB. pose proof (decode_digit_range c) as DR.
  pose proof (thresh_range k bias Hb ltac:(unfold two32; lia)) as T. assert (TE : thresh k bias = rfc_t k bias) by (apply thresh_eq; auto; unfold two32; lia).
  rewrite TE in *. set (d := decode_digit c) in *. pose proof (ovg_cons bias k w i c inp d D) as OC. set (t := rfc_t k bias) in *.
  destruct (36 <=? d) eqn:E1; zb; [lia|]. destruct (w =? 0) eqn:E2; zb; [lia|].
  destruct (_ / w <? d) eqn:E3; zb.
  { left. split; [reflexivity|]. apply OC. left. apply lt_div in E3; [|lia]. change max32 with maxint. lia. }
  assert (DW : d * w <= maxint - i) by (apply le_div; lia).
  assert (0 <= d * w) by (apply Z.mul_nonneg_nonneg; lia).
  rewrite (u32_id (d * w)) by (unfold two32, maxint in *; lia). rewrite (u32_id (i + _)) by (unfold two32, maxint in *; lia).
  destruct (d <? t) eqn:E4; zb.
  - split; [rewrite OC; change max32 with maxint; lia|]. exists [c], d. split; [reflexivity|]. split; [now constructor|lia].
  - rewrite (u32_id (36 - t)) by (unfold two32; lia). destruct (36 - t =? 0) eqn:E6; zb; [lia|].
    destruct (maxint / (36 - t) <? w) eqn:E7; zb.
    { left. split; [reflexivity|]. apply OC. right. split; [lia|]. left. apply lt_div in E7; [|lia]. change max32 with maxint. lia. }
    assert (WT : w * (36 - t) <= maxint) by (apply le_div; lia). assert (1 <= w * (36 - t)) by nia.
    rewrite (u32_id (w * _)) by (unfold two32, maxint in *; lia). rewrite (u32_id (k + 36)) by (unfold two32; lia).
    specialize (IH bias (i + d * w) (w * (36 - t)) (k + 36) DG' Hb ltac:(apply kw_step; [exact Hk|lia|lia]) ltac:(lia) ltac:(lia)).
    replace (i + w * d) with (i + d * w) in OC by ring. change max32 with maxint in OC.
    destruct (dec_varint inp bias (i + d * w) (w * (36 - t)) (k + 36)) as [[i1 rest]|rc| |]; try contradiction.
    + destruct IH as (NO & s & q & -> & V & -> & L). split; [rewrite OC; intros [X|(_ & [X|X])]; [lia|lia|contradiction]|].
      exists (c :: s), (d + (36 - t) * q). split; [reflexivity|]. split; [now constructor|]. split; [ring|exact L].
    + destruct IH as [(-> & O)|(-> & O & v & x & M)].
      * left. split; [reflexivity|]. apply OC. right. split; [lia|]. now right.
      * right. split; [reflexivity|]. split; [rewrite OC; intros [X|(_ & [X|X])]; [lia|lia|contradiction]|]. exists (d + (36 - t) * v), ((36 - t) * x). now constructor.
Qed.

Lemma more_not_varint : forall bias k s q, rfc_varint bias k s q -> forall rest v x, ~ rfc_more bias k (s ++ rest) v x.
Proof.
  induction 1 as [k c d D T|k c d s q D T V IH]; intros rest v x M; cbn [app] in M; destruct (more_inv _ _ _ _ _ _ _ M D) as (T' & v' & x' & M' & _); [lia|]. exact (IH _ _ _ M').
Qed.

Lemma read_cls : forall inp bias i, digits inp -> bias_ok bias -> 0 <= i <= maxint ->
  match dec_varint inp bias i 1 36 with
  | Ok (i1, rest) => ~ overflows bias i inp /\ exists s q, inp = s ++ rest /\ rfc_varint bias 36 s q /\ i1 = i + q /\ i1 <= maxint
  | Fail rc => (rc = IDN2_PUNYCODE_OVERFLOW /\ overflows bias i inp) \/ (rc = IDN2_PUNYCODE_BAD_INPUT /\ ~ overflows bias i inp /\ exists v x, rfc_more bias 36 inp v x)
  | _ => False
  end.
Proof.
  intros inp bias i DG Hb Hi. pose proof (dec_varint_cls inp bias i 1 36 DG Hb ltac:(unfold kw; simpl; lia) Hi ltac:(unfold maxint; lia)) as X.
  pose proof (ovg_overflows bias i inp) as OV. destruct (dec_varint inp bias i 1 36) as [[i1 rest]|rc| |]; auto; rewrite !OV; [|exact X].
  destruct X as (O & s & q & E & V & I & L). split; [exact O|]. exists s, q. rewrite Z.mul_1_l in I. auto.
Qed.
Lemma permitted_dec : forall n, 0 <= n -> (permitted n <-> (1114111 <? n) || ((55296 <=? n) && (n <=? 56319)) = false).
Proof.
  intros n N. unfold permitted. rewrite orb_false_iff, andb_false_iff, Z.ltb_ge, !Z.leb_gt. lia.
Qed.

(** One step of the decoder once the integer is known. *)
Lemma D_read : forall cap mo inp o n i bias s rest q, digits inp -> bias_ok bias -> 0 <= i <= zlen o -> 0 <= n <= 1114111 -> zlen o <= mo -> mo < maxint -> mo <= cap ->
  inp = s ++ rest -> rfc_varint bias 36 s q -> ~ overflows bias i inp ->
  exists bias', rfc_adapt q (zlen o + 1) (i =? 0) bias' /\ bias_ok bias' /\
  D cap mo inp o n i bias =
    if maxint <? n + (i + q) / (zlen o + 1) then Fail IDN2_PUNYCODE_OVERFLOW else
    if (1114111 <? n + (i + q) / (zlen o + 1)) || ((55296 <=? n + (i + q) / (zlen o + 1)) && (n + (i + q) / (zlen o + 1) <=? 56319)) then Fail IDN2_PUNYCODE_BAD_INPUT else
    if mo <=? zlen o then Fail IDN2_PUNYCODE_BIG_OUTPUT else
    D cap mo rest (ins o ((i + q) mod (zlen o + 1)) (n + (i + q) / (zlen o + 1))) (n + (i + q) / (zlen o + 1)) ((i + q) mod (zlen o + 1) + 1) bias'.
Proof.
  intros cap mo inp o n i bias s rest q DG Hb Hi Hn Ho Hmo Hcap E V NO. pose proof (rfc_varint_nonneg _ _ _ _ V) as Q.
  assert (NE : inp <> []) by (pose proof (rfc_varint_ne _ _ _ _ V); subst inp; destruct s; [congruence|discriminate]).
  assert (IM : 0 <= i <= maxint) by lia. pose proof (read_cls inp bias i DG Hb IM) as X. rewrite D_step by auto. cbv zeta.
  destruct (dec_varint inp bias i 1 36) as [[i1 r]|rc| |]; try contradiction.
  2:{ exfalso. destruct X as [(_ & X)|(_ & _ & v & x & M)]; [contradiction|]. subst inp. exact (more_not_varint _ _ _ _ V _ _ _ M). }
  destruct X as (_ & s' & q' & E' & V' & -> & L). rewrite E in E'. destruct (varint_fun _ _ _ _ V _ _ _ _ V' E') as (<- & <- & <-). cbn [bind].
  rewrite (u32_id (zlen o + 1)) by (unfold two32, maxint in *; lia). replace (i + q - i) with q by lia. rewrite (u32_id q) by (unfold two32, maxint in *; lia).
  destruct (adapt_ok q (zlen o + 1) (i =? 0)) as (bias' & A1 & A2); [unfold two32, maxint in *; lia|lia|]. rewrite A1. cbn [bind].
  exists bias'. split; [apply adapt_rfc; auto; lia|]. split; [exact A2|].
  destruct (zlen o + 1 =? 0) eqn:E7; zb; [lia|]. set (k := (i + q) / (zlen o + 1)). set (i2 := (i + q) mod (zlen o + 1)).
  assert (I2 : 0 <= i2 < zlen o + 1) by (apply Z.mod_pos_bound; lia). assert (K0 : 0 <= k) by (apply Z.div_pos; lia).
  rewrite (u32_id (maxint - n)) by (unfold two32, maxint in *; lia). destruct (maxint - n <? k) eqn:E8; destruct (maxint <? n + k) eqn:E9; zb; try lia; [reflexivity|].
  rewrite (u32_id (n + k)) by (unfold two32, maxint in *; lia). destruct ((1114111 <? n + k) || _); [reflexivity|]. destruct (mo <=? zlen o) eqn:E10; zb; [reflexivity|].
  rewrite insert_at_ok by lia. cbn [bind]. rewrite (u32_id (i2 + 1)) by (unfold two32, maxint in *; lia). reflexivity.
Qed.

Lemma ins_split : forall o a b n, o = a ++ b -> ins o (zlen a) n = a ++ n :: b.
Proof.
  intros o a b n ->. unfold ins, zlen. rewrite Nat2Z.id. rewrite firstn_app, skipn_app, Nat.sub_diag, firstn_all, skipn_all. cbn [firstn skipn app]. now rewrite app_nil_r.
Qed.
Lemma D_fails : forall len cap mo inp o n i bias rc, (length inp <= len)%nat -> digits inp -> bias_ok bias -> 0 <= i <= zlen o -> 0 <= n <= 1114111 ->
  zlen o <= mo -> mo < maxint -> mo <= cap -> D cap mo inp o n i bias = Fail rc -> rfc_fails mo o n i bias inp rc.
Proof.
  induction len as [|len IH]; intros cap mo inp o n i bias rc Hlen DG Hb Hi Hn Ho Hmo Hcap H.
  all: destruct inp as [|c0 inp0] eqn:EI; [cbn in H; discriminate|].
  { cbn [length] in Hlen. lia. }
  rewrite <- EI in *. assert (NE : inp <> []) by (rewrite EI; discriminate). clear EI.
  assert (IM : 0 <= i <= maxint) by lia. pose proof (read_cls inp bias i DG Hb IM) as X.
  destruct (dec_varint inp bias i 1 36) as [[i1 r]|rc'| |] eqn:DV; try contradiction.
  2:{ rewrite D_step in H by auto. cbv zeta in H. rewrite DV in H. cbn [bind] in H. assert (rc' = rc) as -> by congruence.
      destruct X as [(-> & X)|(-> & NO & v & x & M)]; [now apply rf_overflow|now apply (rf_truncated _ _ _ _ _ _ v x)]. }
  destruct X as (NO & s & q & E & V & -> & L). pose proof (rfc_varint_nonneg _ _ _ _ V) as Q.
  destruct (D_read cap mo inp o n i bias s r q) as (bias' & AD & B' & DE); auto. rewrite DE in H. rewrite E in NO |- *.
  set (k := (i + q) / (zlen o + 1)) in *. set (i2 := (i + q) mod (zlen o + 1)) in *.
  assert (I2 : 0 <= i2 < zlen o + 1) by (apply Z.mod_pos_bound; lia). assert (K0 : 0 <= k) by (apply Z.div_pos; lia).
  destruct (maxint <? n + k) eqn:E1; zb.
  { assert (rc = IDN2_PUNYCODE_OVERFLOW) as -> by congruence. now apply (rf_wraps mo o n i bias s r q). }
  pose proof (permitted_dec (n + k) ltac:(lia)) as P. destruct ((1114111 <? n + k) || _) eqn:E2.
  { assert (rc = IDN2_PUNYCODE_BAD_INPUT) as -> by congruence. apply (rf_forbidden mo o n i bias s r q (n + k)); auto. rewrite P. discriminate. }
  assert (PM : permitted (n + k)) by (now apply P). destruct (mo <=? zlen o) eqn:E3; zb.
  { assert (rc = IDN2_PUNYCODE_BIG_OUTPUT) as -> by congruence. now apply (rf_full mo o n i bias s r q (n + k)). }
  apply (rf_step mo o n i bias s r q bias' (firstn (Z.to_nat i2) o) (skipn (Z.to_nat i2) o) (n + k) i2); auto.
  - symmetry. apply firstn_skipn.
  - unfold zlen in *. rewrite firstn_length_le; lia.
  - destruct PM. apply (IH cap mo r (ins o i2 (n + k)) (n + k) (i2 + 1) bias' rc); auto; rewrite ?zlen_ins; try lia.
    + rewrite E, app_length in Hlen. pose proof (rfc_varint_ne _ _ _ _ V). destruct s; [congruence|]. cbn [length] in Hlen. lia.
    + rewrite E in DG. unfold digits in DG. apply Forall_app in DG. tauto.
Qed.
Lemma fails_D : forall mo o n i bias inp rc, rfc_fails mo o n i bias inp rc -> forall cap, digits inp -> bias_ok bias -> 0 <= i <= zlen o -> 0 <= n <= 1114111 ->
  zlen o <= mo -> mo < maxint -> mo <= cap -> D cap mo inp o n i bias = Fail rc.
Proof.
  induction 1 as [o n i bias s OV|o n i bias s v w M NE NO|o n i bias s rest q V NO W|o n i bias s rest q n' V NO -> W P|o n i bias s rest q n' V NO -> P W
    |o n i bias s rest q bias' a b n' i' rc V NO -> -> P W O A AD F IH]; intros cap DG Hb Hi Hn Ho Hmo Hcap.
  1,2: assert (IM : 0 <= i <= maxint) by lia; pose proof (read_cls _ bias i DG Hb IM) as X; rewrite D_step; cbv zeta; auto.
  - destruct (dec_varint s bias i 1 36) as [[i1 r]|rc'| |]; try contradiction; [destruct X as (X & _); contradiction|]. destruct X as [(-> & X)|(-> & X & _)]; [reflexivity|contradiction].
  - intros ->. apply ovg_overflows in OV. exact (ovg_nil _ _ _ _ OV).
  - destruct (dec_varint s bias i 1 36) as [[i1 r]|rc'| |]; try contradiction.
    + exfalso. destruct X as (_ & s' & q & -> & V & _). exact (more_not_varint _ _ _ _ V _ _ _ M).
    + destruct X as [(-> & X)|(-> & X & _)]; [contradiction|reflexivity].
  - pose proof (rfc_varint_nonneg _ _ _ _ V) as Q. destruct (D_read cap mo (s ++ rest) o n i bias s rest q) as (bias' & AD & B' & DE); auto. rewrite DE.
    change max32 with maxint in W. destruct (maxint <? n + (i + q) / (zlen o + 1)) eqn:E1; zb; [reflexivity|lia].
  - pose proof (rfc_varint_nonneg _ _ _ _ V) as Q. destruct (D_read cap mo (s ++ rest) o n i bias s rest q) as (bias' & AD & B' & DE); auto. rewrite DE.
    change max32 with maxint in W. destruct (maxint <? n + (i + q) / (zlen o + 1)) eqn:E1; zb; [lia|]. assert (K0 : 0 <= (i + q) / (zlen o + 1)) by (apply Z.div_pos; lia).
    rewrite permitted_dec in P by lia. apply not_false_is_true in P. rewrite P. reflexivity.
  - pose proof (rfc_varint_nonneg _ _ _ _ V) as Q. destruct (D_read cap mo (s ++ rest) o n i bias s rest q) as (bias' & AD & B' & DE); auto. rewrite DE.
    assert (K0 : 0 <= (i + q) / (zlen o + 1)) by (apply Z.div_pos; lia). destruct (maxint <? n + (i + q) / (zlen o + 1)) eqn:E1; zb; [destruct P; unfold maxint in *; lia|].
    apply permitted_dec in P; [|lia]. rewrite P. destruct (mo <=? zlen o) eqn:E3; zb; [reflexivity|lia].
  - pose proof (rfc_varint_nonneg _ _ _ _ V) as Q. destruct (D_read cap mo (s ++ rest) o n i bias s rest q) as (bias2 & AD2 & B' & DE); auto. rewrite DE.
    assert (K0 : 0 <= (i + q) / (zlen o + 1)) by (apply Z.div_pos; lia). destruct (maxint <? n + (i + q) / (zlen o + 1)) eqn:E1; zb; [destruct P; unfold maxint in *; lia|].
    pose proof P as P'. apply permitted_dec in P'; [|lia]. rewrite P'. destruct (mo <=? zlen o) eqn:E3; zb; [lia|].
    assert (bias2 = bias') as -> by (eapply rfc_adapt_loop_fun; [exact AD2|exact AD]). rewrite <- A. rewrite (ins_split o a b) by exact O.
    assert (I2 : 0 <= zlen a < zlen o + 1) by (rewrite A; apply Z.mod_pos_bound; lia).
    assert (ZL : zlen (a ++ (n + (i + q) / (zlen o + 1)) :: b) = zlen o + 1) by (rewrite O at 2; rewrite !zlen_app, zlen_cons; lia).
    rewrite <- A in IH. apply IH; auto; try (rewrite ?ZL; lia).
    + unfold digits in DG. apply Forall_app in DG. tauto.
Qed.

(** ** The digits as written *)
Lemma digit_canon : forall c, decode_digit (canon_char c) = decode_digit c.
Proof.
  intros c. unfold canon_char. destruct ((65 <=? c) && (c <=? 90)) eqn:E1; zb.
  - unfold decode_digit. destruct ((97 <=? c + 32) && (c + 32 <=? 122)) eqn:E2; zb; [|apply andb_false_iff in E2; destruct E2; zb; lia].
    destruct ((97 <=? c) && (c <=? 122)) eqn:E3; zb; [lia|]. destruct ((48 <=? c) && (c <=? 57)) eqn:E4; zb; [lia|].
    destruct ((65 <=? c) && (c <=? 90)) eqn:E5; zb; [lia|]. apply andb_false_iff in E5; destruct E5; zb; lia.
  - destruct (c =? 95) eqn:E2; zb; [subst c; reflexivity|reflexivity].
Qed.
Definition rmap {A} (r : out (A * list Z)) : out (A * list Z) := match r with Ok (a, l) => Ok (a, map canon_char l) | Fail x => Fail x | Undef => Undef | NoFuel => NoFuel end.
Lemma varint_canon : forall t bias i w k, dec_varint (map canon_char t) bias i w k = rmap (dec_varint t bias i w k).
Proof.
  induction t as [|c t IH]; intros bias i w k; [reflexivity|]. cbn [map dec_varint]. rewrite digit_canon.
  destruct (36 <=? decode_digit c); [reflexivity|]. destruct (w =? 0); [reflexivity|]. destruct (_ <? decode_digit c); [reflexivity|]. cbv zeta. destruct (decode_digit c <? thresh k bias); [reflexivity|].
  destruct (u32 (36 - thresh k bias) =? 0); [reflexivity|]. destruct (_ <? w); [reflexivity|]. apply IH.
Qed.
Lemma main_canon : forall f cap mo t o n i bias, dec_main f cap mo (map canon_char t) o n i bias = dec_main f cap mo t o n i bias.
Proof.
  induction f as [|f IH]; intros cap mo [|c t] o n i bias; try reflexivity. cbn [dec_main]. change (map canon_char (c :: t)) with (canon_char c :: map canon_char t) at 1. cbv iota.
  cbv zeta. rewrite varint_canon. destruct (dec_varint (c :: t) bias i 1 36) as [[i1 r]|rc| |]; try reflexivity. cbn [rmap bind].
  destruct (adapt _ _ _) as [b| | |]; try reflexivity. cbn [bind]. destruct (_ =? 0); [reflexivity|]. destruct (_ <? _); [reflexivity|]. destruct (_ || _); [reflexivity|]. destruct (mo <=? zlen o); [reflexivity|].
  destruct (insert_at _ _ _ _) as [o'| | |]; try reflexivity. cbn [bind]. apply IH.
Qed.
Lemma D_canon : forall cap mo t o n i bias, D cap mo (map canon_char t) o n i bias = D cap mo t o n i bias.
Proof. intros. unfold D. rewrite map_length. apply main_canon. Qed.
Lemma canon_digit : forall c, ldh_or_underscore c -> c <> 45 -> rfc_digit (canon_char c) (decode_digit (canon_char c)).
Proof.
  intros c L N. apply decode_digit_rfc; unfold ldhu, ldh_or_underscore, canon_char in *; destruct ((65 <=? c) && (c <=? 90)) eqn:E1; zb; try lia;
    apply andb_false_iff in E1; destruct (c =? 95) eqn:E2; zb; destruct E1; zb; lia.
Qed.
Lemma canon_all_digits : forall t, Forall ldh_or_underscore t -> ~ In 45 t -> digits (map canon_char t).
Proof.
  intros t F N. unfold digits. apply Forall_forall. intros x I. apply in_map_iff in I. destruct I as (c & <- & I). apply canon_digit; [rewrite Forall_forall in F; auto|]. intros ->. contradiction.
Qed.
Lemma check_bad : forall l j b, ~ Forall ldh_or_underscore l -> dec_check l j b = Fail IDN2_PUNYCODE_BAD_INPUT.
Proof.
  intros l j b N. pose proof (dec_check_safe l j b) as S. destruct (dec_check l j b) as [b'|rc| |] eqn:E; try contradiction; [|congruence].
  destruct N. apply dec_check_inv in E. destruct E as (E & _). exact E.
Qed.
Lemma decode_delim_bad : forall bs t mo cap, Forall ldh_or_underscore (bs ++ 45 :: t) -> ~ In 45 t -> 0 <= mo < maxint -> zlen (bs ++ 45 :: t) < two64 -> bs = [] \/ t = [] ->
  puny_decode (bs ++ 45 :: t) mo cap = Fail IDN2_PUNYCODE_BAD_INPUT.
Proof.
  intros bs t mo cap HF HN Hmo Hz OR. unfold puny_decode. destruct (bs ++ 45 :: t) as [|c s] eqn:ES; [destruct bs; discriminate|]. rewrite <- ES in *.
  apply ldhu_dec_basic in HF. apply Forall_app in HF. destruct HF as [F1 F2]. inversion F2 as [|? ? F3 F4]; subst.
  destruct (dec_check_app bs (45 :: t) 0 0 F1) as (b' & E). rewrite E. cbn [dec_check]. rewrite F3. change (45 =? delimiter) with true. cbv iota. rewrite dec_check_none by auto. cbn [bind].
  rewrite Z.add_0_l. pose proof (zlen_nonneg _ bs).
  assert (RD : rd (bs ++ 45 :: t) (zlen bs) = Ok 45).
  { unfold rd. destruct (zlen bs <? 0) eqn:E1; zb; [lia|]. unfold zlen. rewrite Nat2Z.id, nth_error_app2, Nat.sub_diag by lia. reflexivity. }
  cbv zeta. rewrite RD. cbn [bind]. change (45 =? delimiter) with true. cbv iota. rewrite zlen_app, zlen_cons in *.
  destruct OR as [->| ->].
  - change (zlen (@nil Z)) with 0. reflexivity.
  - change (zlen (@nil Z)) with 0 in *. rewrite u64_id by lia. replace (zlen bs + (1 + 0) - 1) with (zlen bs) by lia. rewrite Z.eqb_refl, orb_true_r. reflexivity.
Qed.
Lemma decode_delim_full : forall bs t mo cap, Forall ldh_or_underscore (bs ++ 45 :: t) -> ~ In 45 t -> 0 <= mo < maxint -> zlen (bs ++ 45 :: t) < two64 -> bs <> [] -> t <> [] -> mo <= zlen bs ->
  puny_decode (bs ++ 45 :: t) mo cap = Fail IDN2_PUNYCODE_BIG_OUTPUT.
Proof.
  intros bs t mo cap HF HN Hmo Hz NE NE2 L. unfold puny_decode. destruct (bs ++ 45 :: t) as [|c s] eqn:ES; [destruct bs; discriminate|]. rewrite <- ES in *.
  apply ldhu_dec_basic in HF. apply Forall_app in HF. destruct HF as [F1 F2]. inversion F2 as [|? ? F3 F4]; subst.
  destruct (dec_check_app bs (45 :: t) 0 0 F1) as (b' & E). rewrite E. cbn [dec_check]. rewrite F3. change (45 =? delimiter) with true. cbv iota. rewrite dec_check_none by auto. cbn [bind].
  rewrite Z.add_0_l. pose proof (zlen_nonneg _ bs).
  assert (RD : rd (bs ++ 45 :: t) (zlen bs) = Ok 45).
  { unfold rd. destruct (zlen bs <? 0) eqn:E1; zb; [lia|]. unfold zlen. rewrite Nat2Z.id, nth_error_app2, Nat.sub_diag by lia. reflexivity. }
  cbv zeta. rewrite RD. cbn [bind]. change (45 =? delimiter) with true. cbv iota. rewrite zlen_app, zlen_cons in *.
  destruct (maxint <? mo) eqn:EM; zb; [lia|]. assert (1 <= zlen bs) by (destruct bs; [congruence|rewrite zlen_cons; pose proof (zlen_nonneg _ bs); lia]).
  assert (1 <= zlen t) by (destruct t; [congruence|rewrite zlen_cons; pose proof (zlen_nonneg _ t); lia]). rewrite u64_id by lia.
  destruct (zlen bs =? 0) eqn:E1; zb; [lia|]. cbn [orb]. destruct (zlen bs =? _) eqn:E2; zb; [lia|]. destruct (mo <=? zlen bs) eqn:E3; zb; [reflexivity|lia].
Qed.

Lemma decode_errors : forall s mo cap rc, 0 <= mo < 4294967295 -> mo <= cap -> zlen s < two64 -> (puny_decode s mo cap = Fail rc <-> decode_fails mo s rc).
Proof.
  intros s mo cap rc Hmo Hcap Hs. assert (Hmo' : 0 <= mo < maxint) by (unfold maxint; lia).
  assert (PL : forall s, Forall ldh_or_underscore s -> ~ In 45 s -> s <> [] -> (puny_decode s mo cap = Fail rc <-> rfc_fails mo [] 128 0 72 (map canon_char s) rc)).
  { intros x F N NE. rewrite decode_plain by auto. rewrite <- D_canon. change initial_n with 128. change initial_bias with 72. split.
    - intros H. eapply D_fails; try exact H; auto; try (rewrite zlen_nil; lia); try lia. apply canon_all_digits; auto. unfold bias_ok; lia.
    - intros H. apply (fails_D _ _ _ _ _ _ _ H); auto; try (rewrite zlen_nil; lia); try lia. apply canon_all_digits; auto. unfold bias_ok; lia. }
  assert (DL : forall bs t, Forall ldh_or_underscore (bs ++ 45 :: t) -> ~ In 45 t -> bs <> [] -> t <> [] -> zlen bs < mo -> zlen (bs ++ 45 :: t) < two64 ->
    (puny_decode (bs ++ 45 :: t) mo cap = Fail rc <-> rfc_fails mo bs 128 0 72 (map canon_char t) rc)).
  { intros bs t F N NE NE2 L LZ. rewrite decode_delim by (auto; lia). rewrite <- D_canon. change initial_n with 128. change initial_bias with 72. pose proof (zlen_nonneg _ bs).
    assert (Ft : Forall ldh_or_underscore t). { apply Forall_app in F. destruct F as (_ & F). inversion F; auto. } split.
    - intros H'. eapply D_fails; try exact H'; auto; try lia. apply canon_all_digits; auto. unfold bias_ok; lia.
    - intros H'. apply (fails_D _ _ _ _ _ _ _ H'); auto; try lia. apply canon_all_digits; auto. unfold bias_ok; lia. }
  assert (LD : Forall ldh_or_underscore s \/ ~ Forall ldh_or_underscore s).
  { assert (DC : forall c, ldh_or_underscore c \/ ~ ldh_or_underscore c) by (intros c; unfold ldh_or_underscore; lia).
    clear -DC. induction s as [|c s [F|N]]; [left; constructor| |right; intros X; inversion X; contradiction].
    destruct (DC c); [left; now constructor|right; intros X; inversion X; contradiction]. }
  split.
  - intros H. destruct s as [|c s0] eqn:ES; [cbn in H; assert (rc = IDN2_PUNYCODE_BAD_INPUT) as -> by congruence; constructor|]. rewrite <- ES in *.
    assert (NE : s <> []) by (rewrite ES; discriminate). clear ES.
    destruct LD as [LD|LD].
    2:{ unfold puny_decode in H. destruct s as [|c' s']; [congruence|]. rewrite check_bad in H by exact LD. cbn [bind] in H. assert (rc = IDN2_PUNYCODE_BAD_INPUT) as -> by congruence. now apply df_character. }
    destruct (in_dec45 s) as [I|I]; [|apply df_plain; auto; now apply PL]. destruct (last45 s I) as (bs & t & -> & N).
    destruct (list_eq_dec Z.eq_dec bs []) as [B|B]; [|destruct (list_eq_dec Z.eq_dec t []) as [T|T]].
    + rewrite decode_delim_bad in H by auto. assert (rc = IDN2_PUNYCODE_BAD_INPUT) as -> by congruence. apply df_delimiter; auto.
    + rewrite decode_delim_bad in H by auto. assert (rc = IDN2_PUNYCODE_BAD_INPUT) as -> by congruence. apply df_delimiter; auto.
    + destruct (Z.lt_ge_cases (zlen bs) mo) as [L|L].
      * apply df_delim; auto. now apply DL.
      * rewrite decode_delim_full in H by (auto; lia). assert (rc = IDN2_PUNYCODE_BIG_OUTPUT) as -> by congruence. apply df_full; auto; lia.
  - intros H. inversion H as [|s' N|bs t F N O|bs t F N B T L|bs t rc' F N B T L R|s' rc' F N R]; subst.
    + reflexivity.
    + unfold puny_decode. destruct s; [destruct N; constructor|]. now rewrite check_bad.
    + now apply decode_delim_bad.
    + now apply decode_delim_full.
    + now apply DL.
    + apply PL; auto. intros ->. cbn [map] in R. remember (@nil Z) as e eqn:EE. destruct R as [o n i bias s OV|o n i bias s v w M NE NO|o n i bias s rest q V NO W|o n i bias s rest q n' V NO E W P|o n i bias s rest q n' V NO E P W
        |o n i bias s rest q bias' a b n' i' rc V NO E1 E2 P W O A AD F']; try congruence.
      * subst s. apply ovg_overflows in OV. exact (ovg_nil _ _ _ _ OV).
      * apply app_eq_nil in EE. destruct EE as (-> & _). inversion V.
      * apply app_eq_nil in EE. destruct EE as (-> & _). inversion V.
      * apply app_eq_nil in EE. destruct EE as (-> & _). inversion V.
      * apply app_eq_nil in EE. destruct EE as (-> & _). inversion V.
Qed.
