(** Top-level facts about the Punycode functions, phrased with the vocabulary
    of SpecPuny.v. *)
From Verif Require Import Base Puny PunyBase PunyRT PunyDec PunyInv SpecPuny PunyRfc.

Lemma dec_check_safe : forall l j b, match dec_check l j b with
  | Ok b' => b' = b \/ (j <= b' < j + zlen l) | Fail rc => rc = IDN2_PUNYCODE_BAD_INPUT | _ => False end.
Proof.
  induction l as [|c l IH]; intros j b; cbn [dec_check]; auto.
  destruct (dec_basic c); auto. rewrite zlen_cons. pose proof (zlen_nonneg _ l).
  specialize (IH (j + 1) (if c =? delimiter then j else b)).
  destruct (dec_check _ _ _); auto. destruct (c =? delimiter); lia.
Qed.

Lemma bias0 : bias_ok initial_bias.
Proof. split; vm_compute; discriminate. Qed.

Lemma decode_safe : forall s mo cap, 0 <= mo < 4294967295 -> mo <= cap -> zlen s < two64 ->
  match puny_decode s mo cap with
  | Ok L => zlen L <= mo /\ zlen L <= zlen s /\ L <> [] /\
            Forall permitted L /\ Forall (fun c => c < 128 -> ldh_or_underscore c) L /\
            Exists (fun c => 128 <= c) L
  | Fail rc => rc = IDN2_PUNYCODE_BAD_INPUT \/ rc = IDN2_PUNYCODE_OVERFLOW \/ rc = IDN2_PUNYCODE_BIG_OUTPUT
  | Undef => False
  | NoFuel => False
  end.
Proof.
  intros s mo cap Hmo Hcap Hs. destruct (puny_decode s mo cap) as [L| | |] eqn:E.
  - destruct (puny_decode_inv s mo cap L) as (LD & bs & tail & A1 & A2 & A3 & A4 & A5);
      auto; try (unfold maxint; lia).
    pose proof (zlen_nonneg _ bs).
    pose proof (D_safe (length tail) cap mo tail bs initial_n 0 initial_bias ltac:(lia) bias0 ltac:(lia)
      ltac:(unfold initial_n; lia) A4 ltac:(unfold maxint; lia) Hcap ltac:(unfold maxint; lia)) as SF.
    rewrite A5 in SF. destruct SF as (F1 & F2 & F3 & F4 & F5 & F6 & F7).
    assert (LB : Forall ldhu bs). { rewrite A1 in LD. apply Forall_app in LD. tauto. }
    split; [auto|]. split.
    { rewrite A1, !zlen_app. pose proof (zlen_nonneg _ (deli bs)). lia. }
    specialize (F4 A2). split; [intros ->; inversion F4|].
    split; [|split; [|auto]].
    + eapply Forall_impl; [|exact F3]. cbv beta. intros c [Hc|[_ Hc]]; [|auto].
      rewrite Forall_forall in LB. apply LB in Hc. apply ldhu_lt in Hc. unfold permitted. lia.
    + eapply Forall_impl; [|exact F3]. cbv beta. intros c [Hc|[Hc _]] Hlt; [|lia].
      rewrite Forall_forall in LB. apply LB in Hc. exact Hc.
  - revert E. unfold puny_decode. destruct s as [|c0 s0] eqn:ES; [intros E; inversion E; auto|].
    rewrite <- ES in *. destruct (dec_check s 0 0) as [b| | |] eqn:EC; cbn [bind];
      [|pose proof (dec_check_safe s 0 0) as X; rewrite EC in X; intros E; inversion E; subst; auto|discriminate|discriminate].
    destruct (maxint <? mo) eqn:EM; zb; [unfold maxint in EM; lia|].
    destruct (rd s b) as [c| | |] eqn:ER; cbn [bind]; try discriminate.
    2:{ unfold rd in ER. destruct (b <? 0); [discriminate|]. destruct (nth_error _ _); discriminate. }
    assert (GO : forall f r o, (length r <= f)%nat -> 0 <= zlen o <= mo ->
      dec_main f cap mo r o initial_n 0 initial_bias = Fail rc ->
      rc = IDN2_PUNYCODE_BAD_INPUT \/ rc = IDN2_PUNYCODE_OVERFLOW \/ rc = IDN2_PUNYCODE_BIG_OUTPUT).
    { intros f r o Hf Ho H. rewrite dec_main_fuel in H by auto.
      pose proof (D_safe (length r) cap mo r o initial_n 0 initial_bias ltac:(lia) bias0 ltac:(lia)
        ltac:(unfold initial_n; lia) ltac:(lia) ltac:(unfold maxint; lia) Hcap ltac:(unfold maxint; lia)) as SF.
      rewrite H in SF. exact SF. }
    pose proof (dec_check_safe s 0 0) as X; rewrite EC in X.
    assert (1 <= zlen s) by (rewrite ES, zlen_cons; pose proof (zlen_nonneg _ s0); lia).
    destruct (c =? delimiter).
    + destruct (_ || _); [intros E; inversion E; auto|].
      destruct (mo <=? b) eqn:E3; zb; [intros E; inversion E; auto|].
      assert (ZF : zlen (firstn (Z.to_nat b) s) = b).
      { unfold zlen in *. rewrite firstn_length_le; lia. }
      rewrite dec_copy_ok by (rewrite zlen_nil; lia). cbn [bind app].
      apply GO; [|lia]. rewrite skipn_length. lia.
    + apply GO; [rewrite skipn_length; lia|rewrite zlen_nil; lia].
  - exfalso. revert E. unfold puny_decode. destruct s as [|c0 s0] eqn:ES; [discriminate|].
    rewrite <- ES in *. pose proof (dec_check_safe s 0 0) as X.
    assert (1 <= zlen s) by (rewrite ES, zlen_cons; pose proof (zlen_nonneg _ s0); lia).
    destruct (dec_check s 0 0) as [b| | |] eqn:EC; cbn [bind]; try discriminate; [|tauto].
    destruct (maxint <? mo) eqn:EM; zb; [unfold maxint in EM; lia|].
    assert (RD : exists c, rd s b = Ok c).
    { unfold rd. destruct (b <? 0) eqn:E1; zb; [lia|].
      destruct (nth_error s (Z.to_nat b)) eqn:E2; [eauto|].
      apply nth_error_None in E2. unfold zlen in *. lia. }
    destruct RD as (c & RD). rewrite RD. cbn [bind].
    assert (GO : forall f r o, (length r <= f)%nat -> 0 <= zlen o <= mo ->
      dec_main f cap mo r o initial_n 0 initial_bias <> Undef).
    { intros f r o Hf Ho H'. rewrite dec_main_fuel in H' by auto.
      pose proof (D_safe (length r) cap mo r o initial_n 0 initial_bias ltac:(lia) bias0 ltac:(lia)
        ltac:(unfold initial_n; lia) ltac:(lia) ltac:(unfold maxint; lia) Hcap ltac:(unfold maxint; lia)) as SF.
      rewrite H' in SF. exact SF. }
    destruct (c =? delimiter).
    + destruct (_ || _); [discriminate|].
      destruct (mo <=? b) eqn:E3; zb; [discriminate|].
      assert (ZF : zlen (firstn (Z.to_nat b) s) = b).
      { unfold zlen in *. rewrite firstn_length_le; lia. }
      rewrite dec_copy_ok by (rewrite zlen_nil; lia). cbn [bind app].
      apply GO; [|lia]. rewrite skipn_length. lia.
    + apply GO; [rewrite skipn_length; lia|rewrite zlen_nil; lia].
  - exfalso. revert E. unfold puny_decode. destruct s as [|c0 s0] eqn:ES; [discriminate|].
    rewrite <- ES in *. pose proof (dec_check_safe s 0 0) as X.
    assert (1 <= zlen s) by (rewrite ES, zlen_cons; pose proof (zlen_nonneg _ s0); lia).
    destruct (dec_check s 0 0) as [b| | |] eqn:EC; cbn [bind]; try discriminate; [|tauto].
    destruct (maxint <? mo) eqn:EM; zb; [unfold maxint in EM; lia|].
    destruct (rd s b) as [c| | |] eqn:ER; cbn [bind]; try discriminate.
    2:{ unfold rd in ER. destruct (b <? 0); [discriminate|]. destruct (nth_error _ _); discriminate. }
    assert (GO : forall f r o, (length r <= f)%nat -> 0 <= zlen o <= mo ->
      dec_main f cap mo r o initial_n 0 initial_bias <> NoFuel).
    { intros f r o Hf Ho H'. rewrite dec_main_fuel in H' by auto.
      pose proof (D_safe (length r) cap mo r o initial_n 0 initial_bias ltac:(lia) bias0 ltac:(lia)
        ltac:(unfold initial_n; lia) ltac:(lia) ltac:(unfold maxint; lia) Hcap ltac:(unfold maxint; lia)) as SF.
      rewrite H' in SF. exact SF. }
    destruct (c =? delimiter).
    + destruct (_ || _); [discriminate|].
      destruct (mo <=? b) eqn:E3; zb; [discriminate|].
      assert (ZF : zlen (firstn (Z.to_nat b) s) = b).
      { unfold zlen in *. rewrite firstn_length_le; lia. }
      rewrite dec_copy_ok by (rewrite zlen_nil; lia). cbn [bind app].
      apply GO; [|lia]. rewrite skipn_length. lia.
    + apply GO; [rewrite skipn_length; lia|rewrite zlen_nil; lia].
Qed.

Lemma existsb_45_app : forall bs tail, existsb (Z.eqb 45) (bs ++ 45 :: tail) = true.
Proof. intros. rewrite existsb_app. cbn. apply orb_true_r. Qed.
Lemma existsb_45_none : forall t, ~ In 45 t -> existsb (Z.eqb 45) t = false.
Proof.
  intros t H. destruct (existsb (Z.eqb 45) t) eqn:E; auto. apply existsb_exists in E.
  destruct E as (x & H1 & H2). zb. subst. contradiction.
Qed.
Lemma canon_digits : forall t, ~ In 45 t -> canon t = map canon_char t.
Proof.
  intros [|c t] H; auto. cbn [canon]. rewrite existsb_45_none by auto. reflexivity.
Qed.
Lemma canon_delim : forall bs t, ~ In 45 t ->
  canon (bs ++ 45 :: t) = bs ++ 45 :: map canon_char t.
Proof.
  induction bs as [|c bs IH]; intros t H; cbn [app canon].
  - cbn [existsb]. rewrite Z.eqb_refl. cbn [orb]. now rewrite canon_digits.
  - cbn [existsb]. rewrite existsb_45_app, orb_true_r. now rewrite IH.
Qed.

Lemma decode_encode : forall s mo cap L emo ecap,
  0 <= mo < 4294967295 -> mo <= cap -> zlen s < two64 ->
  puny_decode s mo cap = Ok L ->
  zlen s <= emo -> emo < two64 -> emo <= ecap ->
  puny_encode L emo ecap = Ok (canon s).
Proof.
  intros s mo cap L emo ecap Hmo Hcap Hs HD He1 He2 He3.
  destruct (puny_decode_encode s mo cap L emo ecap) as (bs & tail & A1 & A2 & A3 & A4 & A5);
    auto; try (unfold maxint; lia).
  rewrite A5. f_equal.
  assert (MR : map redigit tail = map canon_char tail).
  { apply map_ext_in. intros c Hc. unfold canon_char. rewrite redigit_ldhu; auto.
    - rewrite A1 in A4. apply Forall_app in A4. destruct A4 as [_ A4]. apply Forall_app in A4.
      destruct A4 as [_ A4]. rewrite Forall_forall in A4. auto.
    - intros ->. auto. }
  rewrite MR, A1. destruct bs as [|x bs]; cbn [deli].
  - cbn [app]. now rewrite canon_digits.
  - change ([delimiter] ++ tail) with (45 :: tail). now rewrite canon_delim.
Qed.

Lemma decode_injective : forall s1 s2 mo1 mo2 cap1 cap2 L,
  0 <= mo1 < 4294967295 -> mo1 <= cap1 -> 0 <= mo2 < 4294967295 -> mo2 <= cap2 ->
  zlen s1 < two64 -> zlen s2 < two64 ->
  puny_decode s1 mo1 cap1 = Ok L -> puny_decode s2 mo2 cap2 = Ok L ->
  canon s1 = canon s2.
Proof.
  intros s1 s2 mo1 mo2 cap1 cap2 L H1 H2 H3 H4 H5 H6 D1 D2.
  set (m := Z.max (zlen s1) (zlen s2)).
  pose proof (decode_encode s1 mo1 cap1 L m m H1 H2 H5 D1 ltac:(unfold m; lia) ltac:(unfold m; lia) ltac:(lia)) as E1.
  pose proof (decode_encode s2 mo2 cap2 L m m H3 H4 H6 D2 ltac:(unfold m; lia) ltac:(unfold m; lia) ltac:(lia)) as E2.
  congruence.
Qed.

Lemma decode_rfc : forall s mo cap L,
  0 <= mo < 4294967295 -> mo <= cap -> zlen s < two64 ->
  (forall a t, s = a ++ 95 :: t -> In 45 t) ->
  puny_decode s mo cap = Ok L -> rfc_decodes s L.
Proof.
  intros s mo cap L Hmo Hcap Hs Hu HD.
  destruct (puny_decode_inv s mo cap L) as (LD & bs & tail & A1 & A2 & A3 & A4 & A5);
    auto; try (unfold maxint; lia).
  assert (R : rfc_steps bs 128 0 72 tail L).
  { apply (D_rfc (length tail) cap mo tail bs 128 0 72 L); auto; try (unfold maxint; lia).
    - exact bias0.
    - pose proof (zlen_nonneg _ bs). lia.
    - rewrite A1 in LD. apply Forall_app in LD. destruct LD as [_ LD]. apply Forall_app in LD. destruct LD as [_ LD].
      apply Forall_forall. intros c Hc. split; [rewrite Forall_forall in LD; auto|]. split.
      + intros ->. auto.
      + intros ->. apply A3. apply in_split in Hc. destruct Hc as (a & t & Et). rewrite Et. apply in_or_app. right. right.
        apply (Hu (bs ++ deli bs ++ a) t). rewrite A1, Et, <- !app_assoc. reflexivity. }
  rewrite A1. destruct bs as [|x bs]; cbn [deli app].
  - apply rfc_plain; auto.
  - apply (rfc_delim (x :: bs) tail L); auto. discriminate.
Qed.

Lemma encode_decode : forall L mo cap s mo2 cap2,
  u32_list L -> 0 <= mo < two64 -> mo <= cap ->
  puny_encode L mo cap = Ok s ->
  Forall (fun c => c < 128 -> ldh_or_underscore c) L -> Exists (fun c => 128 <= c) L ->
  zlen L <= mo2 -> mo2 <= cap2 ->
  puny_decode s mo2 cap2 = Ok L \/
  (110 < zlen L /\ puny_decode s mo2 cap2 = Fail IDN2_PUNYCODE_OVERFLOW).
Proof.
  intros. destruct (puny_roundtrip L mo cap s mo2 cap2) as [E|[E1 E2]]; auto.
  right. split; auto. unfold small in E1. lia.
Qed.

Lemma encode_shape : forall L mo cap, u32_list L -> 0 <= mo < two64 -> mo <= cap ->
  match puny_encode L mo cap with
  | Ok s => zlen s <= mo /\ Forall permitted L /\
      exists ds, Forall lower_or_digit ds /\
        s = ascii_part L ++ (if zlen (ascii_part L) =? 0 then [] else [45]) ++ ds
  | Fail rc => rc = IDN2_PUNYCODE_BIG_OUTPUT \/ (rc = IDN2_PUNYCODE_OVERFLOW /\ 3800 < zlen L) \/
               (rc = IDN2_PUNYCODE_BAD_INPUT /\ ~ Forall permitted L)
  | Undef => False
  | NoFuel => False
  end.
Proof.
  intros L mo cap HL Hmo Hcap. pose proof (puny_encode_spec L mo cap HL Hmo Hcap) as S.
  destruct (puny_encode L mo cap) as [s|rc| |]; auto.
  2:{ destruct S as [S|[[S1 S2]|S]]; auto. right. left. split; auto. unfold medium in S2. lia. }
  destruct S as (ds & A1 & A2 & A3 & A4 & _). split; [auto|]. split; [auto|].
  exists (map encode_digit ds). split.
  - clear - A3. induction A3; cbn [map]; constructor; auto.
    pose proof (encode_digit_range x H) as E. exact E.
  - change (filter basicb L) with (ascii_part L) in A2. rewrite A2.
    destruct (ascii_part L) as [|x l]; [reflexivity|].
    rewrite zlen_cons. pose proof (zlen_nonneg _ l). destruct (1 + zlen l =? 0) eqn:E; zb; [lia|reflexivity].
Qed.

Lemma encode_safe : forall L mo cap, u32_list L -> 0 <= mo < two64 -> mo <= cap ->
  safe (puny_encode L mo cap) /\
  (forall s, puny_encode L mo cap = Ok s -> zlen s <= mo).
Proof.
  intros L mo cap H1 H2 H3. pose proof (encode_shape L mo cap H1 H2 H3) as P.
  destruct (puny_encode L mo cap); try contradiction; split; try exact I; intros s0 E; [|discriminate].
  injection E as <-. tauto.
Qed.

(** The precondition out_len < 2^32 - 1 of the decoder is needed. *)
Lemma D_many_a : forall k j cap bias, bias_ok bias -> (0 < k)%nat ->
  Z.of_nat k + Z.of_nat j = two32 -> maxint <= cap ->
  D cap maxint (repeat 97 k) (repeat 128 j) 128 (Z.of_nat j) bias = Undef.
Proof.
  induction k as [|k IH]; intros j cap bias Hb Hk Hj Hcap; [lia|].
  rewrite Nat2Z.inj_succ in Hj. rewrite D_step by discriminate. cbv zeta.
  assert (DV : dec_varint (repeat 97 (S k)) bias (Z.of_nat j) 1 36 = Ok (Z.of_nat j, repeat 97 k)).
  { cbn [repeat dec_varint]. change (decode_digit 97) with 0.
    destruct (36 <=? 0) eqn:E1; zb; [lia|]. destruct (1 =? 0) eqn:E2; zb; [lia|].
    rewrite Z.div_1_r. destruct (maxint - Z.of_nat j <? 0) eqn:E3; zb; [unfold maxint, two32 in *; lia|].
    pose proof (thresh_range 36 bias Hb ltac:(unfold two32; lia)) as T.
    destruct (0 <? thresh 36 bias) eqn:E4; zb; [|lia].
    change (u32 (0 * 1)) with 0. rewrite Z.add_0_r, u32_id by (unfold maxint, two32 in *; lia). reflexivity. }
  rewrite DV. cbn [bind]. rewrite Z.sub_diag.
  assert (ZR : zlen (repeat 128 j) = Z.of_nat j) by (unfold zlen; rewrite repeat_length; reflexivity).
  rewrite ZR. change (u32 0) with 0. unfold adapt.
  destruct (Nat.eq_dec k 0) as [EK|EK].
  - subst k. replace (Z.of_nat j + 1) with two32 by (unfold two32 in *; lia). reflexivity.
  - rewrite u32_id by (unfold two32, maxint in *; lia).
    destruct (Z.of_nat j + 1 =? 0) eqn:E5; zb; [lia|].
    replace (if Z.of_nat j =? 0 then 0 / 700 else Z.shiftr 0 1) with 0 by (destruct (_ =? 0); reflexivity).
    rewrite Z.div_0_l by lia. change (adapt_loop 32 0 (u32 (0 + 0))) with (Ok 0 : out Z). cbn [bind].
    rewrite Z.div_small, Z.mod_small by lia.
    change (u32 (maxint - 128)) with 4294967167. destruct (4294967167 <? 0) eqn:E6; zb; [lia|].
    change (u32 (128 + 0)) with 128.
    destruct (1114111 <? 128) eqn:E7; zb; [lia|]. cbn [orb].
    destruct ((55296 <=? 128) && (128 <=? 56319)) eqn:E8; zb; [lia|].
    destruct (maxint <=? Z.of_nat j) eqn:E9; zb; [unfold two32, maxint in *; lia|].
    rewrite insert_at_ok by (rewrite ZR; unfold two32, maxint in *; lia). cbn [bind].
    rewrite u32_id by (unfold two32, maxint in *; lia).
    assert (IE : ins (repeat 128 j) (Z.of_nat j) 128 = repeat 128 (S j)).
    { unfold ins. rewrite Nat2Z.id, firstn_all2, skipn_all2 by (rewrite repeat_length; lia).
      symmetry. apply repeat_cons. }
    rewrite IE. replace (Z.of_nat j + 1) with (Z.of_nat (S j)) by lia.
    apply IH; auto; try lia. split; lia.
Qed.

Lemma dec_check_a : forall k j b, dec_check (repeat 97 k) j b = Ok b.
Proof.
  induction k as [|k IH]; intros j b; [reflexivity|]. cbn [repeat dec_check].
  change (dec_basic 97) with true. change (97 =? delimiter) with false. cbv iota. apply IH.
Qed.

Lemma decode_undef : exists s, zlen s = 4294967296 /\ puny_decode s 4294967295 4294967295 = Undef.
Proof.
  exists (repeat 97 (Z.to_nat two32)).
  split; [unfold zlen; rewrite repeat_length, Z2Nat.id by (unfold two32; lia); reflexivity|].
  assert (G : forall k, Z.of_nat k = two32 -> puny_decode (repeat 97 k) 4294967295 4294967295 = Undef).
  { intros k Hk. destruct k as [|k]; [unfold two32 in Hk; lia|].
    unfold puny_decode. change (repeat 97 (S k)) with (97 :: repeat 97 k) at 1.
    cbv iota. rewrite dec_check_a. cbn [bind].
    change (rd (repeat 97 (S k)) 0) with (Ok 97 : out Z). cbn [bind].
    change (97 =? delimiter) with false. cbv iota.
    change (Z.to_nat 0) with 0%nat. cbn [skipn].
    change (if maxint <? 4294967295 then maxint else 4294967295) with maxint.
    pose proof (D_many_a (S k) 0 4294967295 initial_bias bias0 ltac:(lia) ltac:(lia) ltac:(unfold maxint; lia)) as X.
    exact X. }
  apply G. rewrite Z2Nat.id; [reflexivity|unfold two32; lia].
Qed.
