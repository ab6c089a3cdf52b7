(** Encoder: safety, shape of the output, and simulation by the decoder. *)
From Verif Require Import Base Puny PunyBase.

Lemma dec_varint_shorter : forall inp bias i w k i' r,
  dec_varint inp bias i w k = Ok (i', r) -> (length r < length inp)%nat.
Proof.
  induction inp as [|c inp IH]; intros bias i w k i' r H; [discriminate|].
  cbn [dec_varint] in H. cbn [length].
  repeat (difH H; [try discriminate; try (inversion H; subst; lia)|]);
    try discriminate; try (inversion H; subst; lia).
  apply IH in H. lia.
Qed.

(** The decoder's main loop with canonical fuel. *)
Definition D (cap mo : Z) (inp o : list Z) (n i bias : Z) : out (list Z) :=
  dec_main (length inp) cap mo inp o n i bias.

Lemma dec_main_fuel : forall f cap mo inp o n i bias,
  (length inp <= f)%nat -> dec_main f cap mo inp o n i bias = D cap mo inp o n i bias.
Proof.
  unfold D.
  induction f as [f IH] using lt_wf_ind. intros cap mo inp o n i bias Hl.
  destruct inp as [|c inp]; [destruct f; reflexivity|].
  destruct f as [|f]; [simpl in Hl; lia|].
  remember (c :: inp) as inp0. assert (NE: inp0 <> []) by (subst; discriminate).
  assert (exists g, length inp0 = S g) as [g Hg] by (subst; simpl; eauto).
  rewrite Hg. rewrite Hg in Hl.
  cbn [dec_main]. destruct inp0; [congruence|].
  destruct (dec_varint _ bias i 1 36) as [[i1 rest]| | |] eqn:E; cbn [bind]; auto.
  apply dec_varint_shorter in E.
  destruct (adapt _ _ _); cbn [bind]; auto.
  repeat (dif; auto).
  destruct (insert_at _ _ _ _); cbn [bind]; auto.
  rewrite (IH f) by lia. symmetry. destruct (Nat.eq_dec g f); [subst; apply IH; lia|].
  rewrite (IH g) by lia. reflexivity.
Qed.

Lemma D_step : forall cap mo inp o n i bias, inp <> [] ->
  D cap mo inp o n i bias =
  (let outn := zlen o in
   let* (i1, rest) := dec_varint inp bias i 1 36 in
   let o1 := u32 (outn + 1) in
   let* bias' := adapt (u32 (i1 - i)) o1 (i =? 0) in
   if o1 =? 0 then Undef else
   if u32 (maxint - n) <? i1 / o1 then Fail IDN2_PUNYCODE_OVERFLOW else
   let n' := u32 (n + i1 / o1) in
   if (1114111 <? n') || ((55296 <=? n') && (n' <=? 56319))
   then Fail IDN2_PUNYCODE_BAD_INPUT else
   let i2 := i1 mod o1 in
   if mo <=? outn then Fail IDN2_PUNYCODE_BIG_OUTPUT else
   let* o' := insert_at cap o i2 n' in
   D cap mo rest o' n' (u32 (i2 + 1)) bias').
Proof.
  intros cap mo inp o n i bias NE. unfold D at 1.
  destruct inp as [|c inp]; [congruence|]. cbn [length dec_main].
  cbv zeta.
  destruct (dec_varint _ bias i 1 36) as [[i1 rest]| | |] eqn:E; cbn [bind]; auto.
  apply dec_varint_shorter in E. simpl in E.
  destruct (adapt _ _ _); cbn [bind]; auto.
  repeat (dif; auto).
  destruct (insert_at _ _ _ _); cbn [bind]; auto.
  apply dec_main_fuel. lia.
Qed.

(** Code points the encoder lets through. *)
Definition cp_ok (c : Z) : Prop := 0 <= c <= 1114111 /\ ~ (55296 <= c <= 56319).

Definition le_n (n c : Z) : bool := c <=? n.
Definition lt_n (n c : Z) : bool := c <? n.

(** Output already known to a decoder when the encoder, working on [n], has
    scanned [pre] and still has [l] in front of it. *)
Definition vis (n : Z) (pre l : list Z) : list Z :=
  filter (le_n n) pre ++ filter (lt_n n) l.

Lemma zlen_filter : forall f (l : list Z), zlen (filter f l) <= zlen l.
Proof.
  induction l; simpl filter. lia. destruct (f a); rewrite ?zlen_cons; lia.
Qed.
Lemma zlen_filter_lt : forall f (l : list Z), zlen (filter f l) = zlen l -> filter f l = l.
Proof.
  induction l; simpl filter; auto. pose proof (zlen_filter f l).
  destruct (f a); rewrite ?zlen_cons; intros. f_equal. apply IHl. lia. lia.
Qed.

Record inv (L : list Z) (b n : Z) (pre l : list Z) (delta bias h : Z)
       (o : list Z) (nd id : Z) : Prop := mkinv {
  i_split : L = pre ++ l;
  i_vis : o = vis n pre l;
  i_h : h = zlen o;
  i_bias : bias_ok bias;
  i_delta : delta = (n - nd) * (zlen o + 1) + zlen (filter (le_n n) pre) - id;
  i_drange : 0 <= delta <= maxint;
  i_nd : 0 <= nd <= n;
  i_id : 0 <= id <= zlen o;
  i_first : id = 0 <-> h = b;
  i_b : b <= h
}.

Definition small (L : list Z) : Prop := zlen L <= 110.
Definition medium (L : list Z) : Prop := zlen L <= 3800.

Definition sim (L : list Z) (ds : list Z) (o : list Z) (nd id bias : Z)
           (o' : list Z) (nd' id' bias' : Z) : Prop :=
  forall cap mo rest, zlen L <= mo -> mo <= cap ->
    D cap mo (ds ++ rest) o nd id bias = D cap mo rest o' nd' id' bias' \/
    (~ small L /\ D cap mo (ds ++ rest) o nd id bias = Fail IDN2_PUNYCODE_OVERFLOW).

Lemma sim_refl : forall L o nd id bias, sim L [] o nd id bias o nd id bias.
Proof. intros L o nd id bias cap mo rest H1 H2. left. reflexivity. Qed.
Lemma sim_trans : forall L ds1 ds2 o nd id bias o1 nd1 id1 bias1 o2 nd2 id2 bias2,
  sim L ds1 o nd id bias o1 nd1 id1 bias1 ->
  sim L ds2 o1 nd1 id1 bias1 o2 nd2 id2 bias2 ->
  sim L (ds1 ++ ds2) o nd id bias o2 nd2 id2 bias2.
Proof.
  intros L ds1 ds2 o nd id bias o1 nd1 id1 bias1 o2 nd2 id2 bias2 S1 S2 cap mo rest H1 H2.
  rewrite <- app_assoc. destruct (S1 cap mo (ds2 ++ rest) H1 H2) as [E|[E1 E2]].
  - rewrite E. apply S2; auto.
  - right. auto.
Qed.

(** One emission is undone by one decoder step. *)
Lemma emit_sim : forall L b n pre l delta bias h o nd id,
  Forall cp_ok L -> zlen L <= maxint ->
  inv L b n pre (n :: l) delta bias h o nd id ->
  exists bias', adapt delta (u32 (h + 1)) (h =? b) = Ok bias' /\ bias_ok bias' /\
    u32 (h + 1) = h + 1 /\
    sim L (map encode_digit (vi 64 bias delta 36)) o nd id bias
        (vis n (pre ++ [n]) l) n (zlen (filter (le_n n) pre) + 1) bias' /\
    inv L b n (pre ++ [n]) l 0 bias' (h + 1) (vis n (pre ++ [n]) l) n
        (zlen (filter (le_n n) pre) + 1).
Proof.
  intros L b n pre l delta bias h o nd id HL HLen [Hs Hv Hh Hb Hd Hdr Hnd Hid Hf Hbb].
  assert (Hlen : h + 1 <= zlen L).
  { rewrite Hh, Hv, Hs. unfold vis. rewrite !zlen_app, zlen_cons. cbn [filter].
    unfold lt_n at 1. rewrite Z.ltb_irrefl.
    pose proof (zlen_filter (le_n n) pre). pose proof (zlen_filter (lt_n n) l). lia. }
  assert (Hh0 : 0 <= h) by (rewrite Hh; apply zlen_nonneg).
  assert (U : u32 (h + 1) = h + 1) by (apply u32_id; unfold two32, maxint in *; lia).
  destruct (adapt_ok delta (h + 1) (h =? b)) as (bias' & Ha & Hbo); [unfold two32, maxint in *; lia|lia|].
  set (pos := zlen (filter (le_n n) pre)) in *.
  assert (Hpos : 0 <= pos <= h).
  { split. apply zlen_nonneg. rewrite Hh, Hv. unfold vis. rewrite zlen_app. fold pos.
    pose proof (zlen_nonneg _ (filter (lt_n n) (n :: l))). lia. }
  assert (Hn : cp_ok n).
  { rewrite Forall_forall in HL. apply HL. rewrite Hs. apply in_or_app. right. left. reflexivity. }
  assert (HV : vis n (pre ++ [n]) l = filter (le_n n) pre ++ n :: filter (lt_n n) l).
  { unfold vis. rewrite filter_app. cbn [filter]. unfold le_n at 2. rewrite Z.leb_refl.
    rewrite <- app_assoc. reflexivity. }
  assert (HO : o = filter (le_n n) pre ++ filter (lt_n n) l).
  { rewrite Hv. unfold vis. cbn [filter]. unfold lt_n at 1. rewrite Z.ltb_irrefl. reflexivity. }
  assert (HZ : zlen (vis n (pre ++ [n]) l) = h + 1).
  { rewrite HV, Hh, HO, !zlen_app, zlen_cons. lia. }
  exists bias'. rewrite U.
  split; [auto|]. split; [exact Hbo|]. split; [auto|]. split.
  - intros cap mo rest Hmo Hcap.
    assert (NE : map encode_digit (vi 64 bias delta 36) ++ rest <> []).
    { pose proof (vi_nonempty 63 bias delta 36). destruct (vi 64 bias delta 36); [congruence|discriminate]. }
    rewrite D_step by exact NE. cbv zeta.
    destruct (dec_varint_vi 63 bias delta 36 id 1 rest) as [[E0 E]|[E1 E2]]; auto.
    + split; [lia|]. assert (maxint < 10 ^ Z.of_nat 63) by (vm_compute; reflexivity). lia.
    + lia.
    + vm_compute; reflexivity.
    + lia.
    + vm_compute. split; discriminate.
    + left. rewrite E. cbn [bind]. rewrite <- Hh.
      replace (id + delta * 1 - id) with delta by lia.
      replace (id + delta * 1) with (pos + (n - nd) * (h + 1)) in * by (rewrite Hh; lia).
      rewrite U. rewrite (u32_id delta) by (unfold two32, maxint in *; lia).
      assert (Hfirst : (id =? 0) = (h =? b)).
      { destruct (h =? b) eqn:EE; zb. apply Z.eqb_eq. tauto. apply Z.eqb_neq. tauto. }
      rewrite Hfirst, Ha. cbn [bind].
      destruct (h + 1 =? 0) eqn:E3; zb; [lia|].
      rewrite Z.div_add, Z.mod_add by lia.
      rewrite Z.div_small, Z.mod_small by lia.
      rewrite Z.add_0_l. destruct Hn as [Hn1 Hn2].
      rewrite (u32_id (maxint - nd)) by (unfold two32, maxint in *; lia).
      destruct (_ <? n - nd) eqn:E4; zb; [unfold maxint in *; lia|].
      replace (nd + (n - nd)) with n by lia.
      rewrite (u32_id n) by (unfold two32; lia).
      destruct (1114111 <? n) eqn:E5; zb; [lia|]. cbn [orb].
      destruct ((55296 <=? n) && (n <=? 56319)) eqn:E6; zb; [lia|].
      destruct (mo <=? h) eqn:E7; zb; [lia|].
      unfold insert_at. rewrite <- Hh.
      destruct (h + 1 <=? cap) eqn:E8; zb; [|lia].
      destruct (0 <=? pos) eqn:E9; zb; [|lia].
      destruct (pos <=? h) eqn:E10; zb; [|lia]. cbn [andb bind].
      rewrite (u32_id (pos + 1)) by (unfold two32, maxint in *; lia).
      f_equal. rewrite HV, HO.
      assert (EP : Z.to_nat pos = length (filter (le_n n) pre)) by (unfold pos, zlen; lia).
      rewrite EP, firstn_app, skipn_app, Nat.sub_diag, firstn_all, skipn_all.
      cbn [firstn skipn]. rewrite app_nil_r. reflexivity.
    + right. rewrite E2. cbn [bind]. split; [|reflexivity].
      unfold small. intros HS. destruct Hn as [Hn1 Hn2].
      assert ((n - nd) * (zlen o + 1) <= 1114111 * (zlen o + 1)).
      { apply Z.mul_le_mono_nonneg_r; lia. }
      unfold maxint in *. lia.
  - constructor; auto.
    + rewrite Hs. rewrite <- app_assoc. reflexivity.
    + rewrite filter_app, zlen_app. cbn [filter]. unfold le_n at 2. rewrite Z.leb_refl.
      rewrite zlen_cons, zlen_nil. fold pos. rewrite HZ. lia.
    + unfold maxint. lia.
    + split; [|lia]. destruct Hn. lia.
    + lia.
    + lia.
    + lia.
Qed.

(** Moving past a code point that is not emitted. *)
Lemma skip_inv : forall L b n pre c l delta bias h o nd id,
  inv L b n pre (c :: l) delta bias h o nd id -> c > n ->
  inv L b n (pre ++ [c]) l delta bias h o nd id.
Proof.
  intros L b n pre c l delta bias h o nd id [Hs Hv Hh Hb Hd Hdr Hnd Hid Hf Hbb] Hc.
  assert (F : filter (le_n n) (pre ++ [c]) = filter (le_n n) pre).
  { rewrite filter_app. cbn [filter]. unfold le_n at 2. destruct (c <=? n) eqn:E; zb; [lia|].
    apply app_nil_r. }
  constructor; auto.
  - rewrite Hs, <- app_assoc. reflexivity.
  - rewrite Hv. unfold vis. rewrite F. cbn [filter]. unfold lt_n at 1.
    destruct (c <? n) eqn:E; zb; [lia|]. reflexivity.
  - rewrite F. auto.
Qed.
Lemma count_inv : forall L b n pre c l delta bias h o nd id,
  inv L b n pre (c :: l) delta bias h o nd id -> c < n -> delta + 1 <= maxint ->
  inv L b n (pre ++ [c]) l (delta + 1) bias h o nd id.
Proof.
  intros L b n pre c l delta bias h o nd id [Hs Hv Hh Hb Hd Hdr Hnd Hid Hf Hbb] Hc Hm.
  assert (F : filter (le_n n) (pre ++ [c]) = filter (le_n n) pre ++ [c]).
  { rewrite filter_app. cbn [filter]. unfold le_n at 2. destruct (c <=? n) eqn:E; zb; [|lia].
    reflexivity. }
  constructor; auto.
  - rewrite Hs, <- app_assoc. reflexivity.
  - rewrite Hv. unfold vis. rewrite F. cbn [filter]. unfold lt_n at 1.
    destruct (c <? n) eqn:E; zb; [|lia]. rewrite <- app_assoc. reflexivity.
  - rewrite F, zlen_app, zlen_cons, zlen_nil. lia.
  - lia.
Qed.

Lemma small_bound : forall L h m nd, medium L -> 0 <= h <= zlen L -> 0 <= nd -> nd <= m <= 1114111 ->
  0 <= (m - nd) * (h + 1) /\ (m - nd) * (h + 1) + zlen L < maxint.
Proof.
  intros L h m nd H1 H2 H3 H4. unfold medium in H1.
  assert ((m - nd) * (h + 1) <= 1114111 * (h + 1)) by (apply Z.mul_le_mono_nonneg_r; lia).
  assert (0 <= (m - nd) * (h + 1)) by (apply Z.mul_nonneg_nonneg; lia).
  unfold maxint. lia.
Qed.

Lemma enc_scan_spec : forall cap mo L b n l pre st o nd id,
  Forall cp_ok L -> zlen L <= maxint -> mo <= cap -> n <= 1114111 ->
  inv L b n pre l (e_delta st) (e_bias st) (e_h st) o nd id ->
  match enc_scan cap mo b n l st with
  | Ok st' => exists ds nd' id',
      e_out st' = e_out st ++ map encode_digit ds /\
      Forall (fun d => 0 <= d < 36) ds /\
      (zlen (e_out st) <= mo -> zlen (e_out st') <= mo) /\
      inv L b n L [] (e_delta st') (e_bias st') (e_h st') (vis n L []) nd' id' /\
      ((nd = n /\ 1 <= id) \/ In n l -> nd' = n /\ 1 <= id') /\
      sim L (map encode_digit ds) o nd id (e_bias st) (vis n L []) nd' id' (e_bias st')
  | Fail rc => rc = IDN2_PUNYCODE_BIG_OUTPUT \/ (rc = IDN2_PUNYCODE_OVERFLOW /\ ~ medium L)
  | _ => False
  end.
Proof.
  intros cap mo L b n l. induction l as [|c l IH]; intros pre st o nd id HL HLen Hcap Hn I.
  - cbn [enc_scan]. exists [], nd, id.
    pose proof (i_split _ _ _ _ _ _ _ _ _ _ _ I) as Hs. rewrite app_nil_r in Hs. subst pre.
    pose proof (i_vis _ _ _ _ _ _ _ _ _ _ _ I) as Hv. subst o.
    cbn [map]. rewrite app_nil_r. split; [auto|]. split; [constructor|]. split; [auto|].
    split; [auto|]. split; [intros [?|[]]; auto|]. apply sim_refl.
  - cbn [enc_scan].
    destruct (c <? n) eqn:E1; zb.
    + pose proof (i_drange _ _ _ _ _ _ _ _ _ _ _ I) as Hdr.
      destruct (u32 (e_delta st + 1) =? 0) eqn:E2; zb.
      { cbn [bind]. right. split; [reflexivity|]. intros HS.
        destruct I as [Hs Hv Hh Hb Hd _ Hnd Hid Hf Hbb].
        assert (HZ : zlen (filter (le_n n) pre) <= zlen L /\ zlen o <= zlen L).
        { rewrite Hs, Hv. unfold vis. rewrite !zlen_app.
          pose proof (zlen_filter (le_n n) pre). pose proof (zlen_filter (lt_n n) (c :: l)).
          pose proof (zlen_nonneg _ (c :: l)). lia. }
        destruct (small_bound L (zlen o) n nd HS) as [SB1 SB2]; try lia.
        rewrite u32_id in E2 by (unfold two32, maxint in *; lia). lia. }
      cbn [bind].
      assert (Hd1 : e_delta st + 1 <= maxint).
      { destruct (Z.eq_dec (e_delta st) maxint) as [E|E]; [|lia].
        rewrite E in E2. exfalso. apply E2. reflexivity. }
      rewrite (u32_id (e_delta st + 1)) in * by (unfold two32, maxint in *; lia).
      destruct (c =? n) eqn:E3; zb; [lia|].
      pose proof (count_inv _ _ _ _ _ _ _ _ _ _ _ _ I E1 Hd1) as I'.
      specialize (IH (pre ++ [c]) (mkest (e_delta st + 1) (e_out st) (e_bias st) (e_h st)) o nd id HL HLen Hcap Hn I').
      destruct (enc_scan _ _ _ _ _ _) as [st'| | |]; auto.
      destruct IH as (ds & nd' & id' & A1 & A2 & A3 & A4 & A5 & A6).
      exists ds, nd', id'. split; [exact A1|]. split; [exact A2|]. split; [exact A3|].
      split; [exact A4|]. split; [|exact A6].
      intros [H|[H|H]]; [auto|lia|auto].
    + cbn [bind]. destruct (c =? n) eqn:E3; zb.
      * subst c. pose proof (i_bias _ _ _ _ _ _ _ _ _ _ _ I) as Hb.
        pose proof (i_drange _ _ _ _ _ _ _ _ _ _ _ I) as Hdr.
        destruct (emit_sim _ _ _ _ _ _ _ _ _ _ _ HL HLen I) as (bias' & B1 & B2 & B3 & B4 & B5).
        destruct (enc_varint_spec 63 cap mo (e_out st) (e_bias st) (e_delta st) 36) as (V1 & V2 & V3).
        { auto. } { auto. }
        { split; [lia|]. assert (maxint < 10 ^ Z.of_nat 63) by (vm_compute; reflexivity). lia. }
        { lia. } { vm_compute; reflexivity. }
        change (S 63) with 64%nat in *.
        rewrite V1. cbv zeta. destruct (_ <=? mo) eqn:E4; zb; [|cbn [bind]; auto]. cbn [bind].
        rewrite B1. cbn [bind]. rewrite B3 in *.
        specialize (IH (pre ++ [n]) (mkest 0 (e_out st ++ map encode_digit (vi 64 (e_bias st) (e_delta st) 36)) bias' (e_h st + 1)) _ _ _ HL HLen Hcap Hn B5).
        destruct (enc_scan _ _ _ _ _ _) as [st'| | |]; auto.
        destruct IH as (ds & nd' & id' & A1 & A2 & A3 & A4 & A5 & A6). cbn [e_out e_bias] in *.
        exists (vi 64 (e_bias st) (e_delta st) 36 ++ ds), nd', id'.
        split; [rewrite A1, map_app, app_assoc; reflexivity|].
        split; [apply Forall_app; auto|].
        split; [auto|]. split; [exact A4|].
        split. { intros _. apply A5. left. split; [reflexivity|]. pose proof (zlen_nonneg _ (filter (le_n n) pre)). lia. }
        rewrite map_app. eapply sim_trans; eauto.
      * assert (E5 : c > n) by lia.
        pose proof (skip_inv _ _ _ _ _ _ _ _ _ _ _ _ I E5) as I'.
        specialize (IH (pre ++ [c]) (mkest (e_delta st) (e_out st) (e_bias st) (e_h st)) o nd id HL HLen Hcap Hn I').
        destruct (enc_scan _ _ _ _ _ _) as [st'| | |]; auto.
        destruct IH as (ds & nd' & id' & A1 & A2 & A3 & A4 & A5 & A6).
        exists ds, nd', id'. split; [exact A1|]. split; [exact A2|]. split; [exact A3|].
        split; [exact A4|]. split; [|exact A6].
        intros [H|[H|H]]; [auto|lia|auto].
Qed.

(** The next code point to insert. *)
Lemma enc_next_spec : forall n l m0,
  let m := fold_left (fun m c => if (n <=? c) && (c <? m) then c else m) l m0 in
  m <= m0 /\ (m = m0 \/ (In m l /\ n <= m)) /\ (forall c, In c l -> n <= c -> m <= c).
Proof.
  intros n l. induction l as [|c l IH]; intros m0; cbn [fold_left].
  - cbv zeta. split; [lia|]. split; [auto|]. intros c [].
  - cbv zeta. destruct ((n <=? c) && (c <? m0)) eqn:E.
    + zb. destruct (IH c) as (A & B & C). cbv zeta in *.
      split; [lia|]. split.
      * right. destruct B as [B|[B1 B2]]; [rewrite B; split; [left; auto|lia]|split; [right; auto|auto]].
      * intros d [Hd|Hd] Hn; [subst; lia|auto].
    + destruct (IH m0) as (A & B & C). cbv zeta in *.
      split; [lia|]. split.
      * destruct B as [B|[B1 B2]]; [auto|right; split; [right; auto|auto]].
      * intros d [Hd|Hd] Hn; [subst|auto].
        apply andb_false_iff in E. destruct E as [E|E]; zb; lia.
Qed.

Lemma filter_ext_in' : forall (f g : Z -> bool) l,
  (forall x, In x l -> f x = g x) -> filter f l = filter g l.
Proof. intros. apply filter_ext_in. auto. Qed.

Lemma exists_unhandled : forall n (l : list Z), zlen (filter (lt_n n) l) < zlen l ->
  exists c, In c l /\ n <= c.
Proof.
  intros n l. induction l as [|a l IH]; cbn [filter]; rewrite ?zlen_nil, ?zlen_cons; intros H; [lia|].
  unfold lt_n at 1 in H. destruct (a <? n) eqn:E; zb.
  - rewrite zlen_cons in H. destruct IH as (c & H1 & H2); [lia|]. exists c. split; [right|]; auto.
  - exists a. split; [left|]; auto.
Qed.

Lemma count_lt_mono : forall n m (l : list Z), n < m -> In n l ->
  zlen (filter (lt_n n) l) < zlen (filter (lt_n m) l).
Proof.
  intros n m l Hnm. assert (G : forall l, zlen (filter (lt_n n) l) <= zlen (filter (lt_n m) l)).
  { induction l0 as [|a l0 IH]; cbn [filter]; [lia|]. 
    destruct (lt_n n a) eqn:E1; destruct (lt_n m a) eqn:E2; unfold lt_n in E1, E2; zb; rewrite ?zlen_cons; lia. }
  induction l as [|a l IH]; cbn [filter]; intros [].
  - subst a. destruct (lt_n n n) eqn:E1; destruct (lt_n m n) eqn:E2; unfold lt_n in E1, E2; zb; try lia.
    rewrite zlen_cons. pose proof (G l). lia.
  - specialize (IH H). destruct (lt_n n a) eqn:E1; destruct (lt_n m a) eqn:E2; unfold lt_n in E1, E2; zb; rewrite ?zlen_cons; lia.
Qed.

(** Main loop.  [o] is what the decoder has reconstructed so far. *)
Lemma enc_main_spec : forall fuel cap mo L b n st nd id,
  Forall cp_ok L -> zlen L <= maxint -> mo <= cap ->
  0 <= n <= 1114112 ->
  inv L b n [] L (e_delta st) (e_bias st) (e_h st) (filter (lt_n n) L) nd id ->
  zlen L - zlen (filter (lt_n n) L) <= Z.of_nat fuel ->
  match enc_main fuel cap mo b L n st with
  | Ok o => exists ds,
      o = e_out st ++ map encode_digit ds /\
      Forall (fun d => 0 <= d < 36) ds /\
      (zlen (e_out st) <= mo -> zlen o <= mo) /\
      exists nd' id' bias',
      sim L (map encode_digit ds) (filter (lt_n n) L) nd id (e_bias st) L nd' id' bias'
  | Fail rc => rc = IDN2_PUNYCODE_BIG_OUTPUT \/ (rc = IDN2_PUNYCODE_OVERFLOW /\ ~ medium L)
  | _ => False
  end.
Proof.
  induction fuel as [|fuel IH]; intros cap mo L b n st nd id HL HLen Hcap Hn I Hfuel.
  - cbn [enc_main]. pose proof (i_h _ _ _ _ _ _ _ _ _ _ _ I) as Hh.
    destruct (e_h st <? zlen L) eqn:E; zb; [lia|].
    exists []. cbn [map]. rewrite app_nil_r. repeat split; auto.
    exists nd, id, (e_bias st).
    rewrite (zlen_filter_lt (lt_n n) L) at 1; [apply sim_refl|].
    pose proof (zlen_filter (lt_n n) L). lia.
  - cbn [enc_main]. pose proof (i_h _ _ _ _ _ _ _ _ _ _ _ I) as Hh.
    destruct (e_h st <? zlen L) eqn:E; zb.
    2:{ exists []. cbn [map]. rewrite app_nil_r. repeat split; auto.
        exists nd, id, (e_bias st).
        rewrite (zlen_filter_lt (lt_n n) L) at 1; [apply sim_refl|].
        pose proof (zlen_filter (lt_n n) L). lia. }
    destruct (exists_unhandled n L) as (c & Hc1 & Hc2); [lia|].
    assert (Hcok : cp_ok c) by (rewrite Forall_forall in HL; auto).
    destruct (enc_next_spec n L maxint) as (M1 & M2 & M3). fold (enc_next n L) in *.
    set (m := enc_next n L) in *.
    assert (Hm : In m L /\ n <= m).
    { destruct M2 as [M2|M2]; [|auto]. specialize (M3 c Hc1 Hc2). destruct Hcok. unfold maxint in *. lia. }
    destruct Hm as [Hm1 Hm2].
    assert (Hmok : cp_ok m) by (rewrite Forall_forall in HL; auto).
    assert (h0 : 0 <= e_h st) by (rewrite Hh; apply zlen_nonneg).
    assert (U : u32 (e_h st + 1) = e_h st + 1) by (apply u32_id; unfold two32, maxint in *; lia).
    rewrite U. destruct (e_h st + 1 =? 0) eqn:E2; zb; [lia|].
    pose proof (i_drange _ _ _ _ _ _ _ _ _ _ _ I) as Hdr.
    rewrite (u32_id (maxint - e_delta st)) by (unfold two32, maxint in *; lia).
    destruct Hmok as [Hmk1 Hmk2].
    rewrite (u32_id (m - n)) by (unfold two32; lia).
    destruct (_ <? m - n) eqn:E3; zb.
    { right. split; [reflexivity|]. intros HS. apply lt_div in E3; [|lia].
      destruct I as [Hs Hv Hh' Hb Hd _ Hnd Hid Hf Hbb]. cbn [filter] in Hd. rewrite zlen_nil in Hd.
      pose proof (zlen_filter (lt_n n) L).
      destruct (small_bound L (e_h st) m nd HS) as [SB1 SB2]; try lia. }
    apply le_div in E3; [|lia].
    assert (0 <= (m - n) * (e_h st + 1)) by (apply Z.mul_nonneg_nonneg; lia).
    rewrite (u32_id ((m - n) * _)) by (unfold two32, maxint in *; lia).
    rewrite (u32_id (e_delta st + _)) by (unfold two32, maxint in *; lia).
    assert (FE : filter (lt_n m) L = filter (lt_n n) L).
    { apply filter_ext_in'. intros x Hx. unfold lt_n.
      destruct (x <? m) eqn:E4; destruct (x <? n) eqn:E5; zb; auto; exfalso; [|lia].
      specialize (M3 x Hx E5). lia. }
    assert (I2 : inv L b m [] L (e_delta st + (m - n) * (e_h st + 1)) (e_bias st) (e_h st) (filter (lt_n n) L) nd id).
    { destruct I as [Hs Hv Hh' Hb Hd Hdr' Hnd Hid Hf Hbb]. constructor; auto.
      - rewrite Hd, Hh'. cbn [filter]. rewrite zlen_nil. ring.
      - unfold maxint in *. lia.
      - lia. }
    pose proof (enc_scan_spec cap mo L b m L []
       (mkest (e_delta st + (m - n) * (e_h st + 1)) (e_out st) (e_bias st) (e_h st))
       (filter (lt_n n) L) nd id HL ltac:(unfold two32, maxint in *; lia) Hcap ltac:(lia) I2) as S.
    destruct (enc_scan _ _ _ _ _ _) as [st'| | |]; cbn [bind]; auto.
    destruct S as (ds & nd' & id' & S1 & S2 & S3 & S4 & S5 & S6). cbn [e_out e_bias] in *.
    destruct (S5 (or_intror Hm1)) as [Hnd' Hid']. subst nd'.
    assert (VL : vis m L [] = filter (lt_n (m + 1)) L).
    { unfold vis. cbn [filter]. rewrite app_nil_r. apply filter_ext_in'. intros x _.
      unfold le_n, lt_n. destruct (x <=? m) eqn:E4; destruct (x <? m + 1) eqn:E5; zb; auto; lia. }
    rewrite (u32_id (m + 1)) by (unfold two32; lia).
    assert (FL : filter (le_n m) L = filter (lt_n (m + 1)) L).
    { rewrite <- VL. unfold vis. cbn [filter]. now rewrite app_nil_r. }
    assert (I3 : inv L b (m + 1) [] L (e_delta st' + 1) (e_bias st') (e_h st') (filter (lt_n (m + 1)) L) m id').
    { destruct S4 as [Hs Hv Hh' Hb Hd Hdr' Hnd Hid Hf Hbb]. rewrite VL, FL in *.
      pose proof (zlen_filter (lt_n (m + 1)) L).
      constructor; auto.
      - rewrite Hd. cbn [filter]. rewrite zlen_nil. ring.
      - rewrite Hd. unfold two32, maxint in *. lia.
      - lia. }
    rewrite (u32_id (e_delta st' + 1)) by (pose proof (i_drange _ _ _ _ _ _ _ _ _ _ _ I3); unfold two32, maxint in *; lia).
    assert (CNT : zlen (filter (lt_n n) L) < zlen (filter (lt_n (m + 1)) L)).
    { rewrite <- FE. apply count_lt_mono; auto. lia. }
    specialize (IH cap mo L b (m + 1) (mkest (e_delta st' + 1) (e_out st') (e_bias st') (e_h st'))
       m id' HL HLen Hcap ltac:(lia) I3 ltac:(lia)).
    destruct (enc_main _ _ _ _ _ _ _) as [o| | |]; auto.
    destruct IH as (ds2 & A1 & A2 & A3 & nd2 & id2 & bias2 & A4). cbn [e_out e_bias] in *.
    exists (ds ++ ds2). rewrite A1, S1, map_app, app_assoc.
    split; [reflexivity|]. split; [apply Forall_app; auto|].
    split. { intros HH. rewrite A1, S1 in A3. auto. rewrite <- S1 in *. apply A3. rewrite S1 in *. auto. }
    exists nd2, id2, bias2. rewrite VL in S6. eapply sim_trans; eauto.
Qed.

(** Basic code points. *)
Definition is_u32 (c : Z) : Prop := 0 <= c < two32.
Definition basicb (c : Z) : bool := c <? 128.

Lemma enc_basic_spec : forall cap mo l o,
  Forall is_u32 l -> 0 <= mo < two64 -> mo <= cap -> zlen o <= mo ->
  match enc_basic cap mo l o with
  | Ok o' => o' = o ++ filter basicb l /\ Forall cp_ok l /\
             (filter basicb l <> [] -> zlen o' + 1 <= mo)
  | Fail rc => rc = IDN2_PUNYCODE_BIG_OUTPUT \/
               (rc = IDN2_PUNYCODE_BAD_INPUT /\ ~ Forall cp_ok l)
  | _ => False
  end.
Proof.
  intros cap mo l. induction l as [|c l IH]; intros o Hl Hmo Hcap Ho; cbn [enc_basic].
  - cbn [filter]. rewrite app_nil_r. repeat split; auto. congruence.
  - inversion Hl as [|? ? Hc Hl']; subst. pose proof (zlen_nonneg _ o).
    assert (CI : cp_ok c -> ~ Forall cp_ok l -> ~ Forall cp_ok (c :: l)).
    { intros _ N F. inversion F; auto. }
    cbn [filter]. change (basicb c) with (c <? 128). destruct (c <? 128) eqn:E; zb.
    + rewrite u64_id by lia. destruct (mo - zlen o <? 2) eqn:E2; zb; [auto|].
      unfold put. destruct (zlen o <? cap) eqn:E3; zb; [|lia]. cbn [bind].
      assert (Hck : cp_ok c) by (unfold cp_ok, is_u32 in *; lia).
      specialize (IH (o ++ [c]) Hl' Hmo Hcap).
      rewrite zlen_app, zlen_cons, zlen_nil in IH.
      destruct (enc_basic _ _ _ _) as [o'| | |].
      * destruct IH as (A & B & C); [lia|]. subst o'. split; [now rewrite <- app_assoc|].
        split; [constructor; auto|]. intros _.
        destruct (filter basicb l) eqn:EF.
        -- rewrite app_nil_r, zlen_app, zlen_cons, zlen_nil. lia.
        -- apply C. discriminate.
      * destruct IH as [A|[A B]]; [lia|auto|]. right. split; auto.
      * apply IH; lia.
      * apply IH; lia.
    + destruct ((1114111 <? c) || _) eqn:E2.
      * right. split; auto. intros F. inversion F as [|? ? Hk _]; subst. unfold cp_ok in Hk.
        apply orb_true_iff in E2. destruct E2 as [E2|E2]; zb; lia.
      * zb. apply andb_false_iff in H1.
        assert (Hck : cp_ok c).
        { unfold cp_ok, is_u32 in *. destruct H1; zb; lia. }
        specialize (IH o Hl' Hmo Hcap Ho).
        destruct (enc_basic _ _ _ _) as [o'| | |]; auto.
        -- destruct IH as (A & B & C). split; [auto|]. split; [constructor; auto|auto].
        -- destruct IH as [A|[A B]]; auto.
Qed.

(** The decoder's first loop. *)
Lemma dec_check_digits : forall l j b, Forall is_digit l -> dec_check l j b = Ok b.
Proof.
  induction l as [|c l IH]; intros j b H; cbn [dec_check]; auto.
  inversion H as [|? ? Hc Hl]; subst. destruct (is_digit_basic c Hc) as [E1 E2].
  rewrite E1. unfold delimiter. destruct (c =? 45) eqn:E; zb; [congruence|auto].
Qed.
Lemma dec_check_app : forall l1 l2 j b, Forall (fun c => dec_basic c = true) l1 ->
  exists b', dec_check (l1 ++ l2) j b = dec_check l2 (j + zlen l1) b'.
Proof.
  induction l1 as [|c l1 IH]; intros l2 j b H; cbn [app dec_check].
  - exists b. rewrite zlen_nil. now rewrite Z.add_0_r.
  - inversion H as [|? ? Hc Hl]; subst. rewrite Hc.
    destruct (IH l2 (j + 1) (if c =? delimiter then j else b) Hl) as (b' & E).
    exists b'. rewrite E, zlen_cons. f_equal. lia.
Qed.

Lemma dec_copy_ok : forall cap l o, zlen o + zlen l <= cap -> dec_copy cap l o = Ok (o ++ l).
Proof.
  intros cap l. induction l as [|c l IH]; intros o H; cbn [dec_copy].
  - now rewrite app_nil_r.
  - rewrite zlen_cons in H. pose proof (zlen_nonneg _ l). unfold put.
    destruct (zlen o <? cap) eqn:E; zb; [|lia]. cbn [bind].
    rewrite IH. now rewrite <- app_assoc. rewrite zlen_app, zlen_cons, zlen_nil. lia.
Qed.

(** What the encoder does, and what a decoder makes of it. *)
Lemma puny_encode_spec : forall L mo cap,
  Forall is_u32 L -> 0 <= mo < two64 -> mo <= cap ->
  match puny_encode L mo cap with
  | Ok s => exists ds, zlen s <= mo /\
      let bs := filter basicb L in
      s = bs ++ (match bs with [] => [] | _ => [delimiter] end) ++ map encode_digit ds /\
      Forall (fun d => 0 <= d < 36) ds /\ Forall cp_ok L /\ zlen L <= maxint /\
      exists nd id bias, sim L (map encode_digit ds) bs initial_n 0 initial_bias L nd id bias
  | Fail rc => rc = IDN2_PUNYCODE_BIG_OUTPUT \/ (rc = IDN2_PUNYCODE_OVERFLOW /\ ~ medium L) \/
               (rc = IDN2_PUNYCODE_BAD_INPUT /\ ~ Forall cp_ok L)
  | _ => False
  end.
Proof.
  intros L mo cap HL Hmo Hcap. unfold puny_encode.
  destruct (maxint <? zlen L) eqn:E; zb.
  { right. left. split; [reflexivity|]. unfold medium, maxint in *. lia. }
  pose proof (enc_basic_spec cap mo L [] HL Hmo Hcap ltac:(rewrite zlen_nil; lia)) as S.
  destruct (enc_basic cap mo L []) as [o| | |]; cbn [bind]; [|tauto|tauto|tauto].
  destruct S as (S1 & S2 & S3). cbn [app] in S1. subst o.
  set (bs := filter basicb L) in *.
  assert (Hbs : 0 <= zlen bs <= zlen L) by (split; [apply zlen_nonneg|apply zlen_filter]).
  rewrite (u32_id (zlen bs)) by (unfold two32, maxint in *; lia).
  assert (FE : bs = filter (lt_n initial_n) L) by reflexivity.
  assert (P : exists o', (if 0 <? zlen bs then put cap bs delimiter else Ok bs) = Ok o' /\
              o' = bs ++ (match bs with [] => [] | _ => [delimiter] end) /\ zlen o' <= mo).
  { destruct bs as [|x bs'] eqn:EB.
    - rewrite zlen_nil. cbn. exists []. rewrite zlen_nil. repeat split; lia.
    - assert (zlen (x :: bs') + 1 <= mo) by (apply S3; discriminate).
      destruct (0 <? zlen (x :: bs')) eqn:E2; zb; [|rewrite zlen_cons in E2; pose proof (zlen_nonneg _ bs'); lia].
      unfold put. destruct (_ <? cap) eqn:E3; zb; [|lia].
      eexists. split; [reflexivity|]. split; [reflexivity|]. rewrite zlen_app, (zlen_cons _ delimiter), zlen_nil. lia. }
  destruct P as (o' & P1 & P2 & P3). rewrite P1. cbn [bind].
  assert (I : inv L (zlen bs) initial_n [] L 0 initial_bias (zlen bs) (filter (lt_n initial_n) L) initial_n 0).
  { rewrite <- FE. constructor.
    - reflexivity.
    - reflexivity.
    - reflexivity.
    - split; vm_compute; discriminate.
    - change (zlen (filter (le_n initial_n) [])) with 0. lia.
    - split; vm_compute; discriminate.
    - unfold initial_n. lia.
    - lia.
    - tauto.
    - lia. }
  pose proof (enc_main_spec (S (length L)) cap mo L (zlen bs) initial_n (mkest 0 o' initial_bias (zlen bs))
     initial_n 0 S2 E Hcap ltac:(unfold initial_n; lia) I) as M.
  rewrite <- FE in M.
  destruct (enc_main _ _ _ _ _ _ _) as [s| | |].
  - destruct M as (ds & M1 & M2 & M3 & nd & id & bias & M4).
    { unfold zlen at 1. lia. }
    cbn [e_out e_bias] in *.
    exists ds. split; [auto|]. cbv zeta. split; [rewrite M1, P2, <- app_assoc; reflexivity|].
    repeat split; auto. exists nd, id, bias. exact M4.
  - destruct M; auto. unfold zlen at 1. lia.
  - apply M. unfold zlen at 1. lia.
  - apply M. unfold zlen at 1. lia.
Qed.

(** Letters, digits, hyphen and underscore. *)
Definition ldhu (c : Z) : Prop :=
  97 <= c <= 122 \/ 65 <= c <= 90 \/ 48 <= c <= 57 \/ c = 45 \/ c = 95.
Lemma ldhu_basic : forall c, dec_basic c = true <-> ldhu c.
Proof.
  intros c. unfold dec_basic, ldhu. rewrite !orb_true_iff, !andb_true_iff, !Z.leb_le, !Z.eqb_eq. lia.
Qed.

Lemma puny_roundtrip : forall L mo cap s mo2 cap2,
  Forall is_u32 L -> 0 <= mo < two64 -> mo <= cap ->
  puny_encode L mo cap = Ok s ->
  Forall (fun c => c < 128 -> ldhu c) L -> Exists (fun c => 128 <= c) L ->
  zlen L <= mo2 -> mo2 <= cap2 ->
  puny_decode s mo2 cap2 = Ok L \/
  (~ small L /\ puny_decode s mo2 cap2 = Fail IDN2_PUNYCODE_OVERFLOW).
Proof.
  intros L mo cap s mo2 cap2 HL Hmo Hcap HE Hld Hex Hmo2 Hcap2.
  pose proof (puny_encode_spec L mo cap HL Hmo Hcap) as S. rewrite HE in S.
  destruct S as (ds & Hs & Es & Hds & Hcp & HLm & nd & id & bias & SIM).
  set (bs := filter basicb L) in *.
  assert (DG : Forall is_digit (map encode_digit ds)).
  { clear - Hds. induction ds as [|d ds IH]; [constructor|]. inversion Hds; subst.
    cbn [map]. constructor; auto. now apply encode_digit_range. }
  assert (Hbs : Forall (fun c => dec_basic c = true) bs).
  { unfold bs. rewrite Forall_forall in *. intros c Hc. apply filter_In in Hc. destruct Hc as [Hc1 Hc2].
    unfold basicb in Hc2. zb. apply ldhu_basic. auto. }
  assert (Hlt : zlen bs < zlen L).
  { assert (zlen bs <> zlen L).
    { intros HH. apply zlen_filter_lt in HH. apply Exists_exists in Hex. destruct Hex as (c & Hc1 & Hc2).
      rewrite <- HH in Hc1. apply filter_In in Hc1. destruct Hc1 as [_ Hc1]. unfold basicb in Hc1. zb. lia. }
    unfold bs in *. pose proof (zlen_filter basicb L). lia. }
  assert (NE : ds <> []).
  { intros HH. subst ds. destruct (SIM (zlen L) (zlen L) [] ltac:(lia) ltac:(lia)) as [SS|[_ SS]]; cbn in SS.
    - inversion SS. rewrite H0 in Hlt. lia.
    - discriminate. }
  set (mo3 := if maxint <? mo2 then maxint else mo2).
  assert (Hmo3 : zlen L <= mo3 /\ mo3 <= cap2).
  { unfold mo3. destruct (maxint <? mo2) eqn:E; zb; lia. }
  destruct Hmo3 as [Hm3a Hm3b].
  pose proof (SIM cap2 mo3 [] Hm3a Hm3b) as SS. rewrite app_nil_r in SS.
  change (D cap2 mo3 [] L nd id bias) with (Ok L : out (list Z)) in SS.
  destruct bs as [|x bs'] eqn:EB.
  - cbn [app] in Es. unfold puny_decode.
    destruct s as [|c0 s0] eqn:ES. { destruct ds; [congruence|discriminate]. }
    rewrite <- ES in *. clear ES c0 s0.
    rewrite Es. rewrite dec_check_digits by auto. cbn [bind]. fold mo3.
    assert (RD : exists c, rd (map encode_digit ds) 0 = Ok c /\ is_digit c).
    { destruct ds; [congruence|]. cbn. inversion DG; eauto. }
    destruct RD as (c & RD1 & RD2). rewrite RD1. cbn [bind].
    destruct (is_digit_basic c RD2) as [_ RD3]. unfold delimiter.
    destruct (c =? 45) eqn:E; zb; [congruence|]. cbn [Z.to_nat skipn].
    change (dec_main (length (map encode_digit ds)) cap2 mo3 (map encode_digit ds) [] initial_n 0 initial_bias)
      with (D cap2 mo3 (map encode_digit ds) [] initial_n 0 initial_bias). exact SS.
  - rewrite <- EB in *. assert (Es' : s = bs ++ delimiter :: map encode_digit ds).
    { rewrite Es. rewrite EB. reflexivity. }
    unfold puny_decode.
    destruct s as [|c0 s0] eqn:ES. { rewrite EB in Es'. discriminate. }
    rewrite <- ES in *. clear ES c0 s0. rewrite Es'.
    destruct (dec_check_app bs (delimiter :: map encode_digit ds) 0 0 Hbs) as (b' & EC).
    rewrite EC. cbn [dec_check]. change (dec_basic delimiter) with true.
    change (delimiter =? delimiter) with true. cbv iota.
    rewrite dec_check_digits by auto. cbn [bind]. rewrite Z.add_0_l. fold mo3.
    assert (RD : rd (bs ++ delimiter :: map encode_digit ds) (zlen bs) = Ok delimiter).
    { unfold rd. pose proof (zlen_nonneg _ bs). destruct (zlen bs <? 0) eqn:E; zb; [lia|].
      unfold zlen. rewrite Nat2Z.id, nth_error_app2, Nat.sub_diag by lia. reflexivity. }
    rewrite RD. cbn [bind]. change (delimiter =? delimiter) with true. cbv iota.
    assert (1 <= zlen bs). { rewrite EB, zlen_cons. pose proof (zlen_nonneg _ bs'). lia. }
    assert (1 <= zlen ds). { destruct ds; [congruence|]. rewrite zlen_cons. pose proof (zlen_nonneg _ ds). lia. }
    destruct (zlen bs =? 0) eqn:E1; zb; [lia|].
    rewrite zlen_app, zlen_cons, zlen_map.
    assert (LB : zlen bs + (1 + zlen ds) <= mo).
    { rewrite Es', zlen_app, zlen_cons, zlen_map in Hs. lia. }
    rewrite u64_id by lia.
    destruct (zlen bs =? _) eqn:E2; zb; [lia|]. cbn [orb].
    destruct (mo3 <=? zlen bs) eqn:E3; zb; [lia|].
    assert (TN : Z.to_nat (zlen bs) = length bs) by (unfold zlen; lia).
    assert (TN1 : Z.to_nat (zlen bs + 1) = (length bs + 1)%nat) by (unfold zlen; lia).
    rewrite TN, TN1, firstn_app, Nat.sub_diag, firstn_all. cbn [firstn]. rewrite app_nil_r.
    rewrite dec_copy_ok by (rewrite zlen_nil; lia). cbn [bind app].
    rewrite skipn_app, skipn_all2 by lia.
    replace (length bs + 1 - length bs)%nat with 1%nat by lia. cbn [skipn app].
    rewrite dec_main_fuel by (rewrite app_length; cbn [length]; lia). exact SS.
Qed.
