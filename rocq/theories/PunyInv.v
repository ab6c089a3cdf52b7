(** The encoder reproduces (the canonical form of) whatever was decoded. *)
From Verif Require Import Base Puny PunyBase PunyRT PunyDec.

Definition redigit (c : Z) : Z := encode_digit (decode_digit c).

Lemma in_first : forall (n : Z) l, In n l -> exists l1 l2, l = l1 ++ n :: l2 /\ ~ In n l1.
Proof.
  intros n l. induction l as [|a l IH]; intros []; [subst|].
  - exists [], l. split; [reflexivity|]. intros [].
  - destruct (Z.eq_dec a n) as [E|E].
    + subst. exists [], l. split; [reflexivity|]. intros [].
    + destruct (IH H) as (l1 & l2 & A & B). exists (a :: l1), l2. subst l. split; auto.
      intros [?|?]; auto.
Qed.
Lemma filter_le_lt : forall n l, ~ In n l -> filter (le_n n) l = filter (lt_n n) l.
Proof.
  intros n l H. apply filter_ext_in'. intros x Hx. unfold le_n, lt_n.
  destruct (x <=? n) eqn:E1; destruct (x <? n) eqn:E2; zb; auto; [|lia].
  assert (x = n) by lia. subst. contradiction.
Qed.

(** Bound on the pending emission. *)
Lemma pending_bound : forall cap mo inp o nd id bias L n pre l,
  bias_ok bias -> 0 <= nd <= 1114111 -> dinv o nd id ->
  zlen o <= mo -> mo <= maxint -> mo <= cap ->
  D cap mo inp o nd id bias = Ok L ->
  L = pre ++ l -> o = vis n pre l -> nd <= n -> In n l ->
  (nd = n -> id <= zlen (filter (le_n n) pre)) ->
  exists l1 l2, l = l1 ++ n :: l2 /\ ~ In n l1 /\
  (n - nd) * (zlen o + 1) + (zlen (filter (le_n n) pre) + zlen (filter (lt_n n) l1)) <= maxint.
Proof.
  intros cap mo inp o nd id bias L n pre l Hb Hnd HI Ho Hmo Hcap HD HL HV Hn HIn Hpos.
  destruct (in_first n l HIn) as (l1 & l2 & E1 & E2). exists l1, l2. split; [auto|]. split; [auto|].
  assert (FE : filter (le_n n) (pre ++ l1) = filter (le_n n) pre ++ filter (lt_n n) l1).
  { rewrite filter_app. f_equal. apply filter_le_lt. auto. }
  destruct (next_insertion cap mo inp o nd id bias L n (pre ++ l1) l2) as (ds & rest & q & bias' & S & _); auto.
  - rewrite HL, E1, <- app_assoc. reflexivity.
  - rewrite HV, E1. unfold vis. rewrite FE, filter_app, <- app_assoc. reflexivity.
  - intros E. rewrite FE, zlen_app. specialize (Hpos E). pose proof (zlen_nonneg _ (filter (lt_n n) l1)). lia.
  - pose proof (s_pos _ _ _ _ _ _ _ _ _ _ _ _ S) as P. pose proof (s_max _ _ _ _ _ _ _ _ _ _ _ _ S). rewrite FE, zlen_app in P. lia.
Qed.

Lemma inv_vis_dinv : forall n pre l,
  dinv (vis n (pre ++ [n]) l) n (zlen (filter (le_n n) pre) + 1).
Proof.
  intros n pre l.
  assert (HV : vis n (pre ++ [n]) l = (filter (le_n n) pre ++ [n]) ++ filter (lt_n n) l).
  { unfold vis. rewrite filter_app. cbn [filter]. unfold le_n at 2. rewrite Z.leb_refl. reflexivity. }
  assert (EP : Z.to_nat (zlen (filter (le_n n) pre) + 1) = length (filter (le_n n) pre ++ [n])).
  { rewrite app_length. cbn [length]. unfold zlen. lia. }
  pose proof (zlen_nonneg _ (filter (le_n n) pre)).
  pose proof (zlen_nonneg _ (filter (lt_n n) l)).
  unfold dinv. rewrite EP, HV, firstn_app, skipn_app, Nat.sub_diag, firstn_all, skipn_all.
  cbn [firstn skipn app]. rewrite app_nil_r. split; [|split].
  - rewrite !zlen_app, zlen_cons, zlen_nil. lia.
  - apply Forall_app. split; [|repeat constructor; lia]. apply Forall_forall. intros x Hx.
    apply filter_In in Hx. destruct Hx as [_ Hx]. unfold le_n in Hx. zb. lia.
  - apply Forall_forall. intros x Hx. apply filter_In in Hx. destruct Hx as [_ Hx]. unfold lt_n in Hx. zb. lia.
Qed.

Lemma enc_scan_dec : forall cap mo dcap dmo L b n l pre st o nd id inp,
  Forall cp_ok L -> zlen L <= maxint -> mo <= cap -> 0 <= n <= 1114111 ->
  inv L b n pre l (e_delta st) (e_bias st) (e_h st) o nd id ->
  (nd = n /\ 1 <= id) \/ In n l -> dinv o nd id ->
  dmo <= maxint -> dmo <= dcap -> zlen L <= dmo ->
  D dcap dmo inp o nd id (e_bias st) = Ok L ->
  zlen (e_out st) + zlen inp <= mo ->
  exists st' dsin rest id',
    enc_scan cap mo b n l st = Ok st' /\ inp = dsin ++ rest /\
    e_out st' = e_out st ++ map redigit dsin /\
    inv L b n L [] (e_delta st') (e_bias st') (e_h st') (vis n L []) n id' /\ 1 <= id' /\
    dinv (vis n L []) n id' /\
    D dcap dmo rest (vis n L []) n id' (e_bias st') = Ok L.
Proof.
  intros cap mo dcap dmo L b n l.
  induction l as [|c l IH]; intros pre st o nd id inp HL HLen Hcap Hn I Hpend HI Hdmo Hdcap HLd HD Hroom.
  - cbn [enc_scan]. destruct Hpend as [[E1 E2]|[]]. subst nd.
    exists st, [], inp, id.
    pose proof (i_split _ _ _ _ _ _ _ _ _ _ _ I) as Hs. rewrite app_nil_r in Hs. subst pre.
    pose proof (i_vis _ _ _ _ _ _ _ _ _ _ _ I) as Hv. subst o.
    cbn [map app]. rewrite app_nil_r. repeat split; auto; try apply I; try apply HI.
  - assert (HOL : zlen o <= zlen L).
    { pose proof (i_vis _ _ _ _ _ _ _ _ _ _ _ I) as Hv. pose proof (i_split _ _ _ _ _ _ _ _ _ _ _ I) as Hs.
      rewrite Hv, Hs. unfold vis. rewrite !zlen_app. pose proof (zlen_filter (le_n n) pre).
      pose proof (zlen_filter (lt_n n) (c :: l)). lia. }
    pose proof (i_nd _ _ _ _ _ _ _ _ _ _ _ I) as Hnd.
    pose proof (i_bias _ _ _ _ _ _ _ _ _ _ _ I) as Hb.
    pose proof (i_drange _ _ _ _ _ _ _ _ _ _ _ I) as Hdr.
    pose proof (i_delta _ _ _ _ _ _ _ _ _ _ _ I) as Hd.
    pose proof (i_split _ _ _ _ _ _ _ _ _ _ _ I) as Hs.
    pose proof (i_vis _ _ _ _ _ _ _ _ _ _ _ I) as Hv.
    pose proof (i_id _ _ _ _ _ _ _ _ _ _ _ I) as Hid.
    set (pos := zlen (filter (le_n n) pre)) in *.
    assert (Hpos : nd = n -> id <= pos).
    { intros E. subst nd. lia. }
    assert (P0 : 0 <= pos) by apply zlen_nonneg.
    cbn [enc_scan].
    destruct (c <? n) eqn:E1; zb.
    + (* counted *)
      assert (Hd1 : e_delta st + 1 <= maxint).
      { destruct (Z.eq_dec nd n) as [E|E].
        - subst nd. assert (pos + 1 <= zlen o).
          { rewrite Hv. unfold vis. rewrite zlen_app. fold pos. cbn [filter]. unfold lt_n at 1.
            destruct (c <? n) eqn:E2; zb; [|lia]. rewrite zlen_cons.
            pose proof (zlen_nonneg _ (filter (lt_n n) l)). lia. }
          lia.
        - assert (HIn : In n (c :: l)) by (destruct Hpend as [[? _]|?]; [congruence|auto]).
          destruct (pending_bound dcap dmo inp o nd id (e_bias st) L n pre (c :: l)) as (l1 & l2 & B1 & B2 & B3);
            auto; try lia.
          fold pos in B3. destruct l1 as [|x l1]; [inversion B1; lia|]. inversion B1; subst x.
          cbn [filter] in B3. unfold lt_n at 1 in B3. destruct (c <? n) eqn:E2; zb; [|lia].
          rewrite zlen_cons in B3. pose proof (zlen_nonneg _ (filter (lt_n n) l1)). lia. }
      rewrite (u32_id (e_delta st + 1)) by (unfold two32, maxint in *; lia).
      destruct (e_delta st + 1 =? 0) eqn:E2; zb; [lia|]. cbn [bind].
      destruct (c =? n) eqn:E3; zb; [lia|].
      pose proof (count_inv _ _ _ _ _ _ _ _ _ _ _ _ I E1 Hd1) as I'.
      apply (IH (pre ++ [c]) (mkest (e_delta st + 1) (e_out st) (e_bias st) (e_h st)) o nd id inp); auto.
      destruct Hpend as [?|[?|?]]; [auto|lia|auto].
    + cbn [bind]. destruct (c =? n) eqn:E3; zb.
      * subst c.
        destruct (next_insertion dcap dmo inp o nd id (e_bias st) L n pre l) as (ds & rest & q & bias'' & S & SD);
          auto; try lia.
        fold pos in S, SD. destruct S as [s_inp0 s_ne0 s_vi0 s_q0 s_pos0 s_max0 s_i20 s_n0 s_cp0 s_adapt0 s_bias0 s_room0].
        assert (EQ : q = e_delta st) by lia. subst q.
        destruct (emit_sim _ _ _ _ _ _ _ _ _ _ _ HL HLen I) as (bias' & A1 & A2 & A3 & _ & A5). fold pos in A5.
        pose proof (i_h _ _ _ _ _ _ _ _ _ _ _ I) as Hh.
        assert (BB : bias'' = bias').
        { rewrite A3 in A1. rewrite Hh in A1 at 1. pose proof (i_first _ _ _ _ _ _ _ _ _ _ _ I) as Hf.
          assert (Hfirst : (id =? 0) = (e_h st =? b)).
          { destruct (e_h st =? b) eqn:EE; zb. apply Z.eqb_eq. tauto. apply Z.eqb_neq. tauto. }
          rewrite Hfirst in s_adapt0. congruence. }
        subst bias''.
        destruct (enc_varint_spec 63 cap mo (e_out st) (e_bias st) (e_delta st) 36) as (V1 & V2 & V3).
        { auto. } { auto. }
        { split; [lia|]. assert (maxint < 10 ^ Z.of_nat 63) by (vm_compute; reflexivity). lia. }
        { lia. } { vm_compute; reflexivity. }
        change (S 63) with 64%nat in *.
        assert (VD : vi 64 (e_bias st) (e_delta st) 36 = map decode_digit ds).
        { rewrite (s_vi0 63%nat). destruct ds as [|d0 ds0]; [congruence|]. apply (vi_fuel 63 (length ds0)); auto; try lia.
          - split; [lia|]. assert (maxint < 10 ^ Z.of_nat 63) by (vm_compute; reflexivity). lia.
          - vm_compute; reflexivity. }
        rewrite V1. cbv zeta. rewrite VD, map_map.
        change (fun x => encode_digit (decode_digit x)) with redigit.
        assert (ZI : zlen inp = zlen ds + zlen rest) by (rewrite s_inp0; apply zlen_app).
        destruct (_ <=? mo) eqn:E4; zb.
        2:{ rewrite zlen_app, zlen_map in E4. pose proof (zlen_nonneg _ rest). lia. }
        cbn [bind]. rewrite A1. cbn [bind]. rewrite A3.
        destruct (IH (pre ++ [n]) (mkest 0 (e_out st ++ map redigit ds) bias' (e_h st + 1))
                     (vis n (pre ++ [n]) l) n (pos + 1) rest) as (st' & dsin & rest' & id' & C1 & C2 & C3 & C4 & C5 & C6 & C7);
          auto.
        { left. split; [reflexivity|lia]. }
        { apply inv_vis_dinv. }
        { cbn [e_out]. rewrite zlen_app, zlen_map. lia. }
        exists st', (ds ++ dsin), rest', id'. cbn [e_out] in C3.
        split; [exact C1|]. split; [rewrite s_inp0, C2, app_assoc; reflexivity|].
        split; [rewrite C3, map_app, app_assoc; reflexivity|]. auto.
      * assert (E5 : c > n) by lia.
        pose proof (skip_inv _ _ _ _ _ _ _ _ _ _ _ _ I E5) as I'.
        apply (IH (pre ++ [c]) (mkest (e_delta st) (e_out st) (e_bias st) (e_h st)) o nd id inp); auto.
        destruct Hpend as [?|[?|?]]; [auto|lia|auto].
Qed.

Lemma enc_main_dec : forall fuel cap mo dcap dmo L b n st nd id inp,
  Forall cp_ok L -> zlen L <= maxint -> mo <= cap ->
  0 <= n <= 1114112 -> 128 <= nd <= 1114111 ->
  inv L b n [] L (e_delta st) (e_bias st) (e_h st) (filter (lt_n n) L) nd id ->
  (nd = n -> id = 0) ->
  dinv (filter (lt_n n) L) nd id ->
  dmo < maxint -> dmo <= dcap -> zlen L <= dmo ->
  D dcap dmo inp (filter (lt_n n) L) nd id (e_bias st) = Ok L ->
  zlen (e_out st) + zlen inp <= mo ->
  zlen L - zlen (filter (lt_n n) L) <= Z.of_nat fuel ->
  enc_main fuel cap mo b L n st = Ok (e_out st ++ map redigit inp).
Proof.
  induction fuel as [|fuel IH];
    intros cap mo dcap dmo L b n st nd id inp HL HLen Hcap Hn Hnd I Hz HI Hdmo Hdcap HLd HD Hroom Hfuel.
  all: pose proof (i_h _ _ _ _ _ _ _ _ _ _ _ I) as Hh;
    pose proof (i_bias _ _ _ _ _ _ _ _ _ _ _ I) as Hb;
    pose proof (i_id _ _ _ _ _ _ _ _ _ _ _ I) as Hid;
    pose proof (zlen_filter (lt_n n) L) as ZF;
    assert (DONE : zlen L <= e_h st -> inp = [])
      by (intros E; pose proof (D_safe (length inp) dcap dmo inp (filter (lt_n n) L) nd id (e_bias st)
             ltac:(lia) Hb ltac:(lia) ltac:(lia) ltac:(lia) ltac:(lia) ltac:(lia) ltac:(lia)) as SF;
          rewrite HD in SF; destruct SF as (_ & _ & _ & _ & _ & _ & SF);
          destruct inp; [reflexivity|]; specialize (SF ltac:(discriminate)); lia);
    cbn [enc_main]; destruct (e_h st <? zlen L) eqn:E; zb;
    try (rewrite (DONE E); cbn [map]; rewrite app_nil_r; reflexivity).
  - lia.
  - destruct (exists_unhandled n L) as (c & Hc1 & Hc2); [lia|].
    assert (Hcok : cp_ok c) by (rewrite Forall_forall in HL; auto).
    destruct (enc_next_spec n L maxint) as (M1 & M2 & M3). fold (enc_next n L) in *.
    set (m := enc_next n L) in *.
    assert (Hm : In m L /\ n <= m).
    { destruct M2 as [M2|M2]; [|auto]. specialize (M3 c Hc1 Hc2). destruct Hcok. unfold maxint in *. lia. }
    destruct Hm as [Hm1 Hm2].
    assert (Hmok : cp_ok m) by (rewrite Forall_forall in HL; auto).
    assert (h0 : 0 <= e_h st) by (rewrite Hh; apply zlen_nonneg).
    assert (U : u32 (e_h st + 1) = e_h st + 1) by (apply u32_id; unfold two32, maxint in *; lia).
    rewrite U. destruct (e_h st + 1 =? 0) eqn:E2; zb; [lia|].
    pose proof (i_drange _ _ _ _ _ _ _ _ _ _ _ I) as Hdr.
    pose proof (i_delta _ _ _ _ _ _ _ _ _ _ _ I) as Hd. cbn [filter] in Hd. rewrite zlen_nil in Hd.
    pose proof (i_nd _ _ _ _ _ _ _ _ _ _ _ I) as Hndn.
    rewrite (u32_id (maxint - e_delta st)) by (unfold two32, maxint in *; lia).
    destruct Hmok as [Hmk1 Hmk2].
    rewrite (u32_id (m - n)) by (unfold two32; lia).
    assert (FE : filter (lt_n m) L = filter (lt_n n) L).
    { apply filter_ext_in'. intros x Hx. unfold lt_n.
      destruct (x <? m) eqn:E4; destruct (x <? n) eqn:E5; zb; auto; exfalso; [|lia].
      specialize (M3 x Hx E5). lia. }
    assert (Hzm : nd = m -> id = 0) by (intros; apply Hz; lia).
    destruct (pending_bound dcap dmo inp (filter (lt_n n) L) nd id (e_bias st) L m [] L)
      as (l1 & l2 & B1 & B2 & B3); auto; try lia.
    { cbn [filter]. rewrite zlen_nil. intros X. rewrite (Hzm X). lia. }
    cbn [filter] in B3. rewrite zlen_nil in B3. pose proof (zlen_nonneg _ (filter (lt_n m) l1)) as ZL1.
    assert (E3 : (m - n) * (e_h st + 1) <= maxint - e_delta st).
    { rewrite Hd, Hh. replace (n - nd) with (m - nd - (m - n)) by lia.
      rewrite (Z.mul_sub_distr_r (m - nd)). lia. }
    destruct (_ <? m - n) eqn:E3'.
    { apply Z.ltb_lt in E3'. apply lt_div in E3'; lia. }
    assert (0 <= (m - n) * (e_h st + 1)) by (apply Z.mul_nonneg_nonneg; lia).
    rewrite (u32_id ((m - n) * _)) by (unfold two32, maxint in *; lia).
    rewrite (u32_id (e_delta st + _)) by (unfold two32, maxint in *; lia).
    assert (I2 : inv L b m [] L (e_delta st + (m - n) * (e_h st + 1)) (e_bias st) (e_h st) (filter (lt_n n) L) nd id).
    { destruct I as [Hs Hv Hh' Hb' Hd' Hdr' Hnd' Hid' Hf Hbb]. constructor; auto.
      - rewrite Hd, Hh'. cbn [filter]. rewrite zlen_nil. ring.
      - unfold maxint in *. lia.
      - lia. }
    destruct (enc_scan_dec cap mo dcap dmo L b m L []
       (mkest (e_delta st + (m - n) * (e_h st + 1)) (e_out st) (e_bias st) (e_h st))
       (filter (lt_n n) L) nd id inp) as (st' & dsin & rest & id' & C1 & C2 & C3 & C4 & C5 & C6 & C7); auto; try lia.
    rewrite C1. cbn [bind]. cbn [e_out] in C3.
    assert (VL : vis m L [] = filter (lt_n (m + 1)) L).
    { unfold vis. cbn [filter]. rewrite app_nil_r. apply filter_ext_in'. intros x _.
      unfold le_n, lt_n. destruct (x <=? m) eqn:E4; destruct (x <? m + 1) eqn:E5; zb; auto; lia. }
    rewrite (u32_id (m + 1)) by (unfold two32; lia).
    assert (FL : filter (le_n m) L = filter (lt_n (m + 1)) L).
    { rewrite <- VL. unfold vis. cbn [filter]. now rewrite app_nil_r. }
    assert (I3 : inv L b (m + 1) [] L (e_delta st' + 1) (e_bias st') (e_h st') (filter (lt_n (m + 1)) L) m id').
    { destruct C4 as [Hs Hv Hh' Hb' Hd' Hdr' Hnd' Hid' Hf Hbb]. rewrite VL, FL in *.
      pose proof (zlen_filter (lt_n (m + 1)) L).
      constructor; auto.
      - rewrite Hd'. cbn [filter]. rewrite zlen_nil. ring.
      - rewrite Hd'. unfold two32, maxint in *. lia.
      - lia. }
    rewrite (u32_id (e_delta st' + 1)) by (pose proof (i_drange _ _ _ _ _ _ _ _ _ _ _ I3); unfold two32, maxint in *; lia).
    assert (CNT : zlen (filter (lt_n n) L) < zlen (filter (lt_n (m + 1)) L)).
    { rewrite <- FE. apply count_lt_mono; auto. lia. }
    assert (ZI : zlen inp = zlen dsin + zlen rest) by (rewrite C2; apply zlen_app).
    rewrite VL in C6, C7.
    rewrite (IH cap mo dcap dmo L b (m + 1) (mkest (e_delta st' + 1) (e_out st') (e_bias st') (e_h st'))
       m id' rest); auto; try lia.
    + cbn [e_out]. rewrite C3, C2, map_app, app_assoc. reflexivity.
    + cbn [e_out]. rewrite C3, zlen_app, zlen_map. lia.
Qed.
(** Shape of a decodable string. *)
Definition deli (bs : list Z) : list Z := match bs with [] => [] | _ => [delimiter] end.

Lemma dec_check_inv : forall l j b b', dec_check l j b = Ok b' ->
  Forall ldhu l /\
  ((b' = b /\ ~ In 45 l) \/
   exists l1 l2, l = l1 ++ 45 :: l2 /\ ~ In 45 l2 /\ b' = j + zlen l1).
Proof.
  induction l as [|c l IH]; intros j b b' H; cbn [dec_check] in H.
  - inversion H. split; [constructor|]. left. split; auto.
  - destruct (dec_basic c) eqn:E; [|discriminate]. apply ldhu_basic in E.
    destruct (IH _ _ _ H) as (A & B). split; [constructor; auto|].
    destruct B as [[B1 B2]|(l1 & l2 & B1 & B2 & B3)].
    + destruct (c =? delimiter) eqn:E2; unfold delimiter in E2; zb.
      * right. exists [], l. subst c. rewrite zlen_nil. repeat split; auto. lia.
      * left. split; auto. intros [?|?]; auto.
    + right. exists (c :: l1), l2. rewrite zlen_cons, B1. repeat split; auto. lia.
Qed.

Lemma puny_decode_inv : forall s mo cap L,
  0 <= mo -> mo < maxint -> mo <= cap -> zlen s < two64 ->
  puny_decode s mo cap = Ok L ->
  Forall ldhu s /\ exists bs tail,
    s = bs ++ deli bs ++ tail /\ tail <> [] /\ ~ In 45 tail /\ zlen bs <= mo /\
    D cap mo tail bs initial_n 0 initial_bias = Ok L.
Proof.
  intros s mo cap L Hmo0 Hmo Hcap Hs H. unfold puny_decode in H.
  destruct s as [|c0 s0] eqn:ES; [discriminate|]. rewrite <- ES in *.
  destruct (dec_check s 0 0) as [b| | |] eqn:EC; cbn [bind] in H; try discriminate.
  destruct (maxint <? mo) eqn:EM; zb; [lia|].
  destruct (dec_check_inv _ _ _ _ EC) as (LD & B). split; [auto|].
  destruct B as [[B1 B2]|(l1 & l2 & B1 & B2 & B3)].
  - subst b. exists [], s. cbn [app deli]. rewrite zlen_nil. split; [auto|].
    split; [rewrite ES; discriminate|]. split; [auto|]. split; [lia|].
    assert (R : rd s 0 = Ok c0) by (rewrite ES; reflexivity). rewrite R in H. cbn [bind] in H.
    destruct (c0 =? delimiter) eqn:E; unfold delimiter in E; zb.
    + exfalso. apply B2. rewrite ES. left. auto.
    + cbn [Z.to_nat skipn] in H. exact H.
  - rewrite Z.add_0_l in B3. pose proof (zlen_nonneg _ l1) as Z1. pose proof (zlen_nonneg _ l2) as Z2.
    assert (TN : Z.to_nat (zlen l1) = length l1) by (unfold zlen; lia).
    assert (TN1 : Z.to_nat (zlen l1 + 1) = (length l1 + 1)%nat) by (unfold zlen; lia).
    assert (R : rd s b = Ok 45).
    { unfold rd. rewrite B3. destruct (zlen l1 <? 0) eqn:E; zb; [lia|].
      rewrite TN, B1, nth_error_app2, Nat.sub_diag by lia. reflexivity. }
    rewrite R in H. cbn [bind] in H. change (45 =? delimiter) with true in H. cbv iota in H.
    assert (ZS : zlen s = zlen l1 + 1 + zlen l2) by (rewrite B1, zlen_app, zlen_cons; lia).
    rewrite u64_id in H by lia.
    destruct (b =? 0) eqn:E1; zb; [discriminate|].
    destruct (b =? zlen s - 1) eqn:E2; zb; [discriminate|]. cbn [orb] in H.
    destruct (mo <=? b) eqn:E3; zb; [discriminate|].
    rewrite B3, TN, TN1 in H. rewrite B1 in H at 1.
    rewrite firstn_app, Nat.sub_diag, firstn_all in H. cbn [firstn] in H. rewrite app_nil_r in H.
    rewrite dec_copy_ok in H by (rewrite zlen_nil; lia). cbn [bind app] in H.
    assert (SK : skipn (length l1 + 1) s = l2).
    { rewrite B1, skipn_app, skipn_all2 by lia.
      replace (length l1 + 1 - length l1)%nat with 1%nat by lia. reflexivity. }
    rewrite SK in H.
    rewrite dec_main_fuel in H by (rewrite B1, app_length; cbn [length]; lia).
    exists l1, l2. destruct l1 as [|x l1]; [rewrite zlen_nil in B3; lia|]. cbn [deli].
    split; [rewrite B1; reflexivity|].
    split; [intros E; rewrite E, zlen_nil in ZS; lia|]. split; [auto|]. split; [lia|]. exact H.
Qed.

Lemma ldhu_lt : forall c, ldhu c -> 0 <= c < 128.
Proof. unfold ldhu. lia. Qed.

Lemma enc_basic_ok : forall cap mo l o,
  Forall cp_ok l -> mo < two64 -> mo <= cap ->
  (filter basicb l = [] \/ zlen o + zlen (filter basicb l) + 1 <= mo) ->
  enc_basic cap mo l o = Ok (o ++ filter basicb l).
Proof.
  intros cap mo l. induction l as [|c l IH]; intros o Hl Hmo Hcap Ho; cbn [enc_basic filter].
  - now rewrite app_nil_r.
  - inversion Hl as [|? ? Hc Hl']; subst. cbn [filter] in Ho.
    destruct (basicb c) eqn:EB.
    + pose proof (zlen_nonneg _ (filter basicb l)). pose proof (zlen_nonneg _ o).
      destruct Ho as [Ho|Ho]; [discriminate|]. rewrite zlen_cons in Ho.
      change (basicb c) with (c <? 128) in EB. rewrite EB.
      rewrite u64_id by lia. destruct (mo - zlen o <? 2) eqn:E2; zb; [lia|].
      unfold put. destruct (zlen o <? cap) eqn:E3; zb; [|lia]. cbn [bind].
      rewrite IH; auto. now rewrite <- app_assoc.
      right. rewrite zlen_app, zlen_cons, zlen_nil. lia.
    + change (basicb c) with (c <? 128) in EB. rewrite EB.
      destruct Hc as [Hc1 Hc2].
      destruct (1114111 <? c) eqn:E1; zb; [lia|]. cbn [orb].
      destruct ((55296 <=? c) && (c <=? 56319)) eqn:E2; zb; [lia|]. auto.
Qed.

Lemma puny_decode_encode : forall s mo cap L emo ecap,
  0 <= mo -> mo < maxint -> mo <= cap -> zlen s < two64 ->
  puny_decode s mo cap = Ok L ->
  zlen s <= emo -> emo < two64 -> emo <= ecap ->
  exists bs tail, s = bs ++ deli bs ++ tail /\ ~ In 45 tail /\ tail <> [] /\ Forall ldhu s /\
    puny_encode L emo ecap = Ok (bs ++ deli bs ++ map redigit tail).
Proof.
  intros s mo cap L emo ecap Hmo0 Hmo Hcap Hs H Hemo Hemo2 Hecap.
  destruct (puny_decode_inv _ _ _ _ Hmo0 Hmo Hcap Hs H) as (LD & bs & tail & A1 & A2 & A3 & A4 & A5).
  exists bs, tail. split; [auto|]. split; [auto|]. split; [auto|]. split; [auto|].
  assert (Hbias : bias_ok initial_bias) by (split; vm_compute; discriminate).
  assert (LB : Forall ldhu bs). { rewrite A1 in LD. apply Forall_app in LD. tauto. }
  assert (DI : dinv bs initial_n 0).
  { split; [pose proof (zlen_nonneg _ bs); lia|]. cbn [Z.to_nat firstn skipn]. split; [constructor|].
    eapply Forall_impl; [|exact LB]. cbv beta. intros c Hc. apply ldhu_lt in Hc. unfold initial_n. lia. }
  pose proof (zlen_nonneg _ bs) as ZB.
  pose proof (D_safe (length tail) cap mo tail bs initial_n 0 initial_bias ltac:(lia) Hbias ltac:(lia)
    ltac:(unfold initial_n; lia) A4 ltac:(lia) Hcap ltac:(lia)) as SF.
  rewrite A5 in SF. destruct SF as (F1 & F2 & F3 & F4 & F5 & F6 & F7).
  assert (HL : Forall cp_ok L).
  { eapply Forall_impl; [|exact F3]. cbv beta. intros c [Hc|[_ Hc]]; [|auto].
    rewrite Forall_forall in LB. apply LB in Hc. apply ldhu_lt in Hc. unfold cp_ok. lia. }
  destruct (D_cut (length tail) cap mo tail bs initial_n 0 initial_bias L ltac:(lia) Hbias
    ltac:(unfold initial_n; lia) DI A4 ltac:(lia) Hcap A5) as (pre & l & C1 & C2 & C3).
  cbn [Z.to_nat firstn skipn] in C2, C3.
  assert (FB : filter (lt_n initial_n) L = bs).
  { rewrite C1, filter_app. rewrite C3.
    replace (filter (lt_n initial_n) pre) with (@nil Z); [reflexivity|].
    symmetry. apply filter_none. apply Forall_forall. intros x Hx.
    destruct (lt_n initial_n x) eqn:E; [|reflexivity]. exfalso.
    assert (HI : In x (filter (le_n initial_n) pre)).
    { apply filter_In. split; [auto|]. apply le_lt_n. auto. }
    rewrite C2 in HI. destruct HI. }
  assert (ZS : zlen s = zlen bs + zlen (deli bs) + zlen tail) by (rewrite A1, !zlen_app; lia).
  assert (ZT : 1 <= zlen tail).
  { destruct tail; [congruence|]. rewrite zlen_cons. pose proof (zlen_nonneg _ tail). lia. }
  unfold puny_encode. destruct (maxint <? zlen L) eqn:E; zb; [lia|].
  assert (FB' : filter basicb L = bs) by exact FB.
  rewrite enc_basic_ok; auto.
  2:{ rewrite FB', zlen_nil. destruct bs; [auto|]. right. cbn [deli] in ZS. rewrite (zlen_cons _ delimiter), zlen_nil in ZS. lia. }
  cbn [bind app]. rewrite FB'. pose proof (zlen_filter basicb L) as ZF. rewrite FB' in ZF.
  rewrite (u32_id (zlen bs)) by (unfold two32, maxint in *; lia).
  assert (P : (if 0 <? zlen bs then put ecap bs delimiter else Ok bs) = Ok (bs ++ deli bs)).
  { destruct bs as [|x bs'] eqn:EB.
    - reflexivity.
    - destruct (0 <? zlen (x :: bs')) eqn:E2; zb; [|rewrite zlen_cons in E2; pose proof (zlen_nonneg _ bs'); lia].
      unfold put. cbn [deli] in *. rewrite (zlen_cons _ delimiter), zlen_nil in ZS.
      destruct (_ <? ecap) eqn:E3; zb; [reflexivity|lia]. }
  rewrite P. cbn [bind].
  assert (I : inv L (zlen bs) initial_n [] L 0 initial_bias (zlen bs) (filter (lt_n initial_n) L) initial_n 0).
  { rewrite FB. constructor.
    - reflexivity.
    - unfold vis. cbn [filter app]. auto.
    - reflexivity.
    - auto.
    - change (zlen (filter (le_n initial_n) [])) with 0. lia.
    - split; vm_compute; discriminate.
    - unfold initial_n. lia.
    - lia.
    - tauto.
    - lia. }
  rewrite (enc_main_dec (S (length L)) ecap emo cap mo L (zlen bs) initial_n
    (mkest 0 (bs ++ deli bs) initial_bias (zlen bs)) initial_n 0 tail);
    auto; try (unfold initial_n; lia); try (rewrite FB; auto).
  - cbn [e_out]. rewrite <- app_assoc. reflexivity.
  - cbn [e_out]. rewrite zlen_app. lia.
  - unfold zlen at 1. lia.
Qed.

(** [redigit] only folds letter case and maps '_' to 'a'. *)
Lemma redigit_ldhu : forall c, ldhu c -> c <> 45 ->
  redigit c = if (65 <=? c) && (c <=? 90) then c + 32 else if c =? 95 then 97 else c.
Proof.
  assert (G : forallb (fun k => let c := Z.of_nat k in
     negb (dec_basic c) || (c =? 45) ||
     (redigit c =? if (65 <=? c) && (c <=? 90) then c + 32 else if c =? 95 then 97 else c))
     (seq 0 128) = true) by (vm_compute; reflexivity).
  intros c H1 H2. rewrite forallb_forall in G. pose proof (ldhu_lt c H1) as H3.
  specialize (G (Z.to_nat c) ltac:(apply in_seq; lia)). cbv zeta in G.
  rewrite Z2Nat.id in G by lia. apply ldhu_basic in H1. rewrite H1 in G. cbn [negb orb] in G.
  destruct (c =? 45) eqn:E; zb; [lia|]. cbn [orb] in G. zb. exact G.
Qed.
