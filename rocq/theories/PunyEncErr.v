(** The error codes of the Punycode encoder. *)
From Verif Require Import Base Puny PunyBase PunyRT SpecPuny PunyTop SpecToAscii PunyExact SpecPunyErr.

(** No counter overflows: every code point handled so far has written a byte. *)
Definition fits (mo : Z) (L : list Z) : Prop := 1114111 * (mo + 1) + zlen L < maxint.

Lemma fits_bound : forall mo L h m nd, fits mo L -> 0 <= h <= mo -> 0 <= nd -> nd <= m <= 1114111 ->
  0 <= (m - nd) * (h + 1) /\ (m - nd) * (h + 1) + zlen L < maxint.
Proof.
  intros mo L h m nd H1 H2 H3 H4. unfold fits in H1.
  assert ((m - nd) * (h + 1) <= 1114111 * (h + 1)) by (apply Z.mul_le_mono_nonneg_r; lia).
  assert (0 <= (m - nd) * (h + 1)) by (apply Z.mul_nonneg_nonneg; lia). lia.
Qed.

Lemma scan_nov : forall cap mo L b n l pre st o nd id,
  Forall cp_ok L -> zlen L <= maxint -> mo <= cap -> n <= 1114111 -> fits mo L ->
  inv L b n pre l (e_delta st) (e_bias st) (e_h st) o nd id -> e_h st <= zlen (e_out st) <= mo ->
  match enc_scan cap mo b n l st with
  | Ok st' => e_h st' <= zlen (e_out st') <= mo
  | Fail rc => rc = IDN2_PUNYCODE_BIG_OUTPUT
  | _ => True
  end.
Proof.
  intros cap mo L b n l. induction l as [|c l IH]; intros pre st o nd id HL HLen Hcap Hn FT I HH; cbn [enc_scan]; [exact HH|].
  destruct (c <? n) eqn:E1; zb.
  - pose proof (i_drange _ _ _ _ _ _ _ _ _ _ _ I) as Hdr.
    destruct (u32 (e_delta st + 1) =? 0) eqn:E2; zb.
    { cbn [bind]. exfalso. destruct I as [Hs Hv Hh Hb Hd _ Hnd Hid Hf Hbb].
      assert (HZ : zlen (filter (le_n n) pre) <= zlen L).
      { rewrite Hs, zlen_app. pose proof (zlen_filter (le_n n) pre). pose proof (zlen_nonneg _ (c :: l)). lia. }
      pose proof (zlen_nonneg _ o).
      destruct (fits_bound mo L (zlen o) n nd FT) as [SB1 SB2]; try lia.
      rewrite u32_id in E2 by (unfold two32, maxint in *; lia). lia. }
    cbn [bind].
    assert (Hd1 : e_delta st + 1 <= maxint).
    { destruct (Z.eq_dec (e_delta st) maxint) as [E|E]; [|lia]. rewrite E in E2. exfalso. apply E2. reflexivity. }
    rewrite (u32_id (e_delta st + 1)) in * by (unfold two32, maxint in *; lia).
    destruct (c =? n) eqn:E3; zb; [lia|].
    pose proof (count_inv _ _ _ _ _ _ _ _ _ _ _ _ I E1 Hd1) as I'.
    exact (IH (pre ++ [c]) (mkest (e_delta st + 1) (e_out st) (e_bias st) (e_h st)) o nd id HL HLen Hcap Hn FT I' HH).
  - cbn [bind]. destruct (c =? n) eqn:E3; zb.
    + subst c. pose proof (i_bias _ _ _ _ _ _ _ _ _ _ _ I) as Hb.
      pose proof (i_drange _ _ _ _ _ _ _ _ _ _ _ I) as Hdr.
      destruct (emit_sim _ _ _ _ _ _ _ _ _ _ _ HL HLen I) as (bias' & B1 & B2 & B3 & B4 & B5).
      destruct (enc_varint_spec 63 cap mo (e_out st) (e_bias st) (e_delta st) 36) as (V1 & V2 & V3).
      { auto. } { auto. }
      { split; [lia|]. assert (maxint < 10 ^ Z.of_nat 63) by (vm_compute; reflexivity). lia. }
      { lia. } { vm_compute; reflexivity. }
      change (S 63) with 64%nat in *.
      rewrite V1. cbv zeta. destruct (_ <=? mo) eqn:E4; zb; [|cbn [bind]; auto]. cbn [bind].
      rewrite B1. cbn [bind]. rewrite B3 in *.
      refine (IH (pre ++ [n]) (mkest 0 (e_out st ++ map encode_digit (vi 64 (e_bias st) (e_delta st) 36)) bias' (e_h st + 1)) _ _ _ HL HLen Hcap Hn FT B5 _).
      cbn [e_h e_out]. split; [|exact E4]. rewrite zlen_app.
      assert (1 <= zlen (map encode_digit (vi 64 (e_bias st) (e_delta st) 36))).
      { pose proof (vi_nonempty 63 (e_bias st) (e_delta st) 36) as NE. destruct (vi 64 _ _ _) as [|x t]; [congruence|].
        cbn [map]. rewrite zlen_cons. pose proof (zlen_nonneg _ (map encode_digit t)). lia. }
      lia.
    + assert (E5 : c > n) by lia.
      pose proof (skip_inv _ _ _ _ _ _ _ _ _ _ _ _ I E5) as I'.
      exact (IH (pre ++ [c]) (mkest (e_delta st) (e_out st) (e_bias st) (e_h st)) o nd id HL HLen Hcap Hn FT I' HH).
Qed.

Lemma main_nov : forall fuel cap mo L b n st nd id,
  Forall cp_ok L -> zlen L <= maxint -> mo <= cap -> 0 <= n <= 1114112 -> fits mo L ->
  inv L b n [] L (e_delta st) (e_bias st) (e_h st) (filter (lt_n n) L) nd id -> e_h st <= zlen (e_out st) <= mo ->
  match enc_main fuel cap mo b L n st with Fail rc => rc = IDN2_PUNYCODE_BIG_OUTPUT | _ => True end.
Proof.
  induction fuel as [|fuel IH]; intros cap mo L b n st nd id HL HLen Hcap Hn FT I HH; cbn [enc_main].
  { destruct (_ <? _); exact Logic.I. }
  pose proof (i_h _ _ _ _ _ _ _ _ _ _ _ I) as Hh.
  destruct (e_h st <? zlen L) eqn:E; zb; [|exact Logic.I].
  destruct (exists_unhandled n L) as (c & Hc1 & Hc2); [lia|].
  assert (Hcok : cp_ok c) by (rewrite Forall_forall in HL; auto).
  destruct (enc_next_spec n L maxint) as (M1 & M2 & M3). fold (enc_next n L) in *.
  set (m := enc_next n L) in *.
  assert (Hm : In m L /\ n <= m).
  { destruct M2 as [M2|M2]; [|auto]. specialize (M3 c Hc1 Hc2). destruct Hcok. unfold maxint in *. lia. }
  destruct Hm as [Hm1 Hm2].
  assert (Hmok : cp_ok m) by (rewrite Forall_forall in HL; auto).
  assert (h0 : 0 <= e_h st) by (rewrite Hh; apply zlen_nonneg).
  assert (U : u32 (e_h st + 1) = e_h st + 1) by (apply u32_id; unfold two32, maxint in *; lia).
  rewrite U. destruct (e_h st + 1 =? 0) eqn:E2; zb; [lia|].
  pose proof (i_drange _ _ _ _ _ _ _ _ _ _ _ I) as Hdr.
  rewrite (u32_id (maxint - e_delta st)) by (unfold two32, maxint in *; lia).
  destruct Hmok as [Hmk1 Hmk2].
  rewrite (u32_id (m - n)) by (unfold two32; lia).
  destruct (_ <? m - n) eqn:E3; zb.
  { exfalso. apply lt_div in E3; [|lia].
    destruct I as [Hs Hv Hh' Hb Hd _ Hnd Hid Hf Hbb]. cbn [filter] in Hd. rewrite zlen_nil in Hd.
    pose proof (zlen_filter (lt_n n) L).
    destruct (fits_bound mo L (e_h st) m nd FT) as [SB1 SB2]; try lia. }
  apply le_div in E3; [|lia].
  assert (0 <= (m - n) * (e_h st + 1)) by (apply Z.mul_nonneg_nonneg; lia).
  rewrite (u32_id ((m - n) * _)) by (unfold two32, maxint in *; lia).
  rewrite (u32_id (e_delta st + _)) by (unfold two32, maxint in *; lia).
  assert (FE : filter (lt_n m) L = filter (lt_n n) L).
  { apply filter_ext_in'. intros x Hx. unfold lt_n.
    destruct (x <? m) eqn:E4; destruct (x <? n) eqn:E5; zb; auto; exfalso; [|lia].
    specialize (M3 x Hx E5). lia. }
  assert (I2 : inv L b m [] L (e_delta st + (m - n) * (e_h st + 1)) (e_bias st) (e_h st) (filter (lt_n n) L) nd id).
  { destruct I as [Hs Hv Hh' Hb Hd Hdr' Hnd Hid Hf Hbb]. constructor; auto.
    - rewrite Hd, Hh'. cbn [filter]. rewrite zlen_nil. ring.
    - unfold maxint in *. lia.
    - lia. }
  assert (HLm : zlen L <= maxint) by exact HLen.
  pose proof (enc_scan_spec cap mo L b m L []
     (mkest (e_delta st + (m - n) * (e_h st + 1)) (e_out st) (e_bias st) (e_h st))
     (filter (lt_n n) L) nd id HL HLm Hcap ltac:(lia) I2) as S.
  pose proof (scan_nov cap mo L b m L []
     (mkest (e_delta st + (m - n) * (e_h st + 1)) (e_out st) (e_bias st) (e_h st))
     (filter (lt_n n) L) nd id HL HLm Hcap ltac:(lia) FT I2 HH) as S'.
  destruct (enc_scan _ _ _ _ _ _) as [st'| | |]; cbn [bind]; auto.
  destruct S as (ds & nd' & id' & S1 & S2 & S3 & S4 & S5 & S6). cbn [e_out e_bias] in *.
  destruct (S5 (or_intror Hm1)) as [Hnd' Hid']. subst nd'.
  assert (VL : vis m L [] = filter (lt_n (m + 1)) L).
  { unfold vis. cbn [filter]. rewrite app_nil_r. apply filter_ext_in'. intros x _.
    unfold le_n, lt_n. destruct (x <=? m) eqn:E4; destruct (x <? m + 1) eqn:E5; zb; auto; lia. }
  rewrite (u32_id (m + 1)) by (unfold two32; lia).
  assert (FL : filter (le_n m) L = filter (lt_n (m + 1)) L).
  { rewrite <- VL. unfold vis. cbn [filter]. now rewrite app_nil_r. }
  assert (I3 : inv L b (m + 1) [] L (e_delta st' + 1) (e_bias st') (e_h st') (filter (lt_n (m + 1)) L) m id').
  { destruct S4 as [Hs Hv Hh' Hb Hd Hdr' Hnd Hid Hf Hbb]. rewrite VL, FL in *.
    pose proof (zlen_filter (lt_n (m + 1)) L).
    constructor; auto.
    - rewrite Hd. cbn [filter]. rewrite zlen_nil. ring.
    - rewrite Hd. unfold two32, maxint in *. lia.
    - lia. }
  rewrite (u32_id (e_delta st' + 1)) by (pose proof (i_drange _ _ _ _ _ _ _ _ _ _ _ I3); unfold two32, maxint in *; lia).
  exact (IH cap mo L b (m + 1) (mkest (e_delta st' + 1) (e_out st') (e_bias st') (e_h st')) m id' HL HLen Hcap ltac:(lia) FT I3 S').
Qed.

(** The basic code points. *)
Lemma basic_fail : forall cap mo l o rc, Forall is_u32 l -> 0 <= mo < two64 -> mo <= cap -> zlen o <= mo ->
  enc_basic cap mo l o = Fail rc ->
  exists a c b, l = a ++ c :: b /\ Forall permitted a /\
    ((rc = IDN2_PUNYCODE_BAD_INPUT /\ ~ permitted c /\ (ascii_part a = [] \/ zlen o + zlen (ascii_part a) + 1 <= mo)) \/
     (rc = IDN2_PUNYCODE_BIG_OUTPUT /\ 0 <= c < 128 /\ mo < zlen o + zlen (ascii_part a) + 2)).
Proof.
  intros cap mo l. induction l as [|c l IH]; intros o rc Hl Hmo Hcap Ho H; cbn [enc_basic] in H; [discriminate|].
  inversion Hl as [|? ? Hc Hl']; subst. pose proof (zlen_nonneg _ o). destruct (c <? 128) eqn:E; zb.
  - rewrite u64_id in H by lia. destruct (mo - zlen o <? 2) eqn:E2; zb.
    + exists [], c, l. split; [reflexivity|]. split; [constructor|]. right. split; [congruence|]. unfold is_u32 in Hc.
      cbn [ascii_part filter]. rewrite zlen_nil. lia.
    + unfold put in H. destruct (zlen o <? cap) eqn:E3; zb; [|lia]. cbn [bind] in H.
      destruct (IH (o ++ [c]) rc Hl' Hmo Hcap) as (a & d & b & -> & F & Q).
      { rewrite zlen_app, zlen_cons, zlen_nil. lia. } { exact H. }
      exists (c :: a), d, b. split; [reflexivity|]. split. { constructor; auto. unfold permitted, is_u32 in *. lia. }
      assert (EA : ascii_part (c :: a) = c :: ascii_part a).
      { unfold ascii_part. cbn [filter]. destruct (c <? 128) eqn:E9; zb; [reflexivity|lia]. }
      rewrite EA, zlen_cons. rewrite zlen_app, zlen_cons, zlen_nil in Q.
      destruct Q as [(Q1 & Q2 & Q3)|(Q1 & Q2 & Q3)]; [left|right; repeat split; auto; lia].
      split; [exact Q1|]. split; [exact Q2|]. right. destruct Q3 as [Q3|Q3]; [rewrite Q3, zlen_nil; lia|lia].
  - destruct ((1114111 <? c) || _) eqn:E2.
    + exists [], c, l. split; [reflexivity|]. split; [constructor|]. left. split; [congruence|]. split; [|left; reflexivity].
      intros P. unfold permitted in P. apply orb_true_iff in E2. destruct E2 as [E2|E2]; zb; lia.
    + zb. apply andb_false_iff in H2.
      destruct (IH o rc Hl' Hmo Hcap Ho H) as (a & d & b & -> & F & Q).
      exists (c :: a), d, b. split; [reflexivity|]. split.
      { constructor; auto. unfold permitted, is_u32 in *. destruct H2; zb; lia. }
      assert (EA : ascii_part (c :: a) = ascii_part a).
      { unfold ascii_part. cbn [filter]. destruct (c <? 128) eqn:E9; zb; [lia|reflexivity]. }
      rewrite EA. exact Q.
Qed.

Lemma basic_app : forall cap mo a c b o, Forall permitted a -> 0 <= mo < two64 -> mo <= cap -> zlen o <= mo ->
  (ascii_part a = [] \/ zlen o + zlen (ascii_part a) + 1 <= mo) ->
  enc_basic cap mo (a ++ c :: b) o = enc_basic cap mo (c :: b) (o ++ ascii_part a).
Proof.
  intros cap mo a c b. induction a as [|x a IH]; intros o F Hmo Hcap Ho R.
  - cbn [app ascii_part filter]. now rewrite app_nil_r.
  - inversion F as [|? ? Hx F']; subst. pose proof (zlen_nonneg _ o). change ((x :: a) ++ c :: b) with (x :: (a ++ c :: b)).
    remember (c :: b) as cb. cbn [enc_basic]. unfold permitted in Hx. unfold ascii_part in *. cbn [filter] in *.
    destruct (x <? 128) eqn:E; zb.
    + destruct R as [R|R]; [discriminate|]. rewrite zlen_cons in R. pose proof (zlen_nonneg _ (filter (fun c => c <? 128) a)).
      rewrite u64_id by lia. destruct (mo - zlen o <? 2) eqn:E2; zb; [lia|]. unfold put. destruct (zlen o <? cap) eqn:E3; zb; [|lia]. cbn [bind].
      rewrite IH; auto.
      * rewrite <- app_assoc. reflexivity.
      * rewrite zlen_app, zlen_cons, zlen_nil. lia.
      * right. rewrite zlen_app, zlen_cons, zlen_nil. lia.
    + destruct (1114111 <? x) eqn:E1; zb; [lia|]. cbn [orb]. destruct ((55296 <=? x) && (x <=? 56319)) eqn:E2; zb; [lia|].
      apply IH; auto.
Qed.

(** Where the room ends. *)
Lemma basic_full : forall cap mo a c b o, Forall permitted a -> 0 <= c < 128 -> 0 <= mo < two64 -> mo <= cap -> zlen o <= mo ->
  mo < zlen o + zlen (ascii_part a) + 2 ->
  enc_basic cap mo (a ++ c :: b) o = Fail IDN2_PUNYCODE_BIG_OUTPUT.
Proof.
  intros cap mo a c b. induction a as [|x a IH]; intros o F Hc Hmo Hcap Ho R; pose proof (zlen_nonneg _ o).
  - cbn [app enc_basic]. cbn [ascii_part filter] in R. rewrite zlen_nil in R. destruct (c <? 128) eqn:E; zb; [|lia].
    rewrite u64_id by lia. destruct (mo - zlen o <? 2) eqn:E2; zb; [reflexivity|lia].
  - inversion F as [|? ? Hx F']; subst. change ((x :: a) ++ c :: b) with (x :: (a ++ c :: b)).
    remember (c :: b) as cb. cbn [enc_basic]. unfold permitted in Hx. unfold ascii_part in *. cbn [filter] in *.
    destruct (x <? 128) eqn:E; zb.
    + rewrite zlen_cons in R. rewrite u64_id by lia. destruct (mo - zlen o <? 2) eqn:E2; zb; [reflexivity|].
      unfold put. destruct (zlen o <? cap) eqn:E3; zb; [|lia]. cbn [bind]. apply IH; auto; rewrite zlen_app, zlen_cons, zlen_nil; lia.
    + destruct (1114111 <? x) eqn:E1; zb; [lia|]. cbn [orb]. destruct ((55296 <=? x) && (x <=? 56319)) eqn:E2; zb; [lia|].
      apply IH; auto.
Qed.

(** After the basic code points nothing but the room can fail. *)
Lemma encode_late : forall L mo cap rc, u32_list L -> 0 <= mo < two64 -> mo <= cap -> fits mo L ->
  puny_encode L mo cap = Fail rc -> enc_basic cap mo L [] = Fail rc \/ (rc = IDN2_PUNYCODE_BIG_OUTPUT /\ Forall permitted L).
Proof.
  intros L mo cap rc HL Hmo Hcap FT H. unfold puny_encode in H.
  assert (E : zlen L <= maxint) by (unfold fits in FT; lia).
  destruct (maxint <? zlen L) eqn:E0; zb; [lia|].
  pose proof (enc_basic_spec cap mo L [] HL Hmo Hcap ltac:(rewrite zlen_nil; lia)) as S.
  destruct (enc_basic cap mo L []) as [o| | |]; cbn [bind] in H; [|left; congruence|discriminate|discriminate].
  right. destruct S as (S1 & S2 & S3). cbn [app] in S1. subst o. split; [|exact S2].
  set (bs := filter basicb L) in *.
  assert (Hbs : 0 <= zlen bs <= zlen L) by (split; [apply zlen_nonneg|apply zlen_filter]).
  rewrite (u32_id (zlen bs)) in H by (unfold two32, maxint in *; lia).
  assert (FE : bs = filter (lt_n initial_n) L) by reflexivity.
  assert (P : exists o', (if 0 <? zlen bs then put cap bs delimiter else Ok bs) = Ok o' /\ zlen bs <= zlen o' <= mo).
  { destruct bs as [|x bs'] eqn:EB.
    - rewrite zlen_nil. cbn. exists []. rewrite zlen_nil. repeat split; lia.
    - assert (zlen (x :: bs') + 1 <= mo) by (apply S3; discriminate).
      destruct (0 <? zlen (x :: bs')) eqn:E2; zb; [|rewrite zlen_cons in E2; pose proof (zlen_nonneg _ bs'); lia].
      unfold put. destruct (_ <? cap) eqn:E3; zb; [|lia].
      eexists. split; [reflexivity|]. rewrite zlen_app, (zlen_cons _ delimiter), zlen_nil. lia. }
  destruct P as (o' & P1 & P2). rewrite P1 in H. cbn [bind] in H.
  assert (I : inv L (zlen bs) initial_n [] L 0 initial_bias (zlen bs) (filter (lt_n initial_n) L) initial_n 0).
  { rewrite <- FE. constructor.
    - reflexivity.
    - reflexivity.
    - reflexivity.
    - split; vm_compute; discriminate.
    - change (zlen (filter (le_n initial_n) [])) with 0. lia.
    - split; vm_compute; discriminate.
    - unfold initial_n. lia.
    - lia.
    - tauto.
    - lia. }
  pose proof (main_nov (Datatypes.S (length L)) cap mo L (zlen bs) initial_n (mkest 0 o' initial_bias (zlen bs))
     initial_n 0 S2 E Hcap ltac:(unfold initial_n; lia) FT I P2) as M.
  rewrite H in M. exact M.
Qed.

Lemma encode_errors : forall L mo cap rc, u32_list L -> 0 <= mo <= 109 -> mo <= cap -> zlen L <= 4172415000 ->
  (puny_encode L mo cap = Fail rc <-> encode_fails mo L rc).
Proof.
  intros L mo cap rc HL Hmo Hcap HZ.
  assert (M64 : 0 <= mo < two64) by (unfold two64; lia).
  assert (FT : fits mo L) by (unfold fits, maxint; lia).
  assert (Z0 : zlen (@nil Z) <= mo) by (rewrite zlen_nil; lia).
  assert (BF : forall r, enc_basic cap mo L [] = Fail r -> puny_encode L mo cap = Fail r).
  { intros r Hb. unfold puny_encode. destruct (maxint <? zlen L) eqn:E; zb; [unfold maxint in *; lia|]. rewrite Hb. reflexivity. }
  split.
  - intros H. destruct (encode_late L mo cap rc HL M64 Hcap FT H) as [B|(-> & P)].
    + destruct (basic_fail cap mo L [] rc HL M64 Hcap Z0 B) as (a & c & b & EL & F & [(-> & Q1 & Q2)|(-> & Q1 & Q2)]); rewrite zlen_nil in Q2.
      * apply (ef_forbidden mo L a c b); auto.
      * apply (ef_full mo L a c b); auto.
    + apply ef_long; [exact P|]. intros e R. destruct (Z.lt_ge_cases mo (zlen e)) as [X|X]; [exact X|exfalso].
      assert (puny_encode L mo cap = Ok e) by (apply encode_iff; auto). congruence.
  - intros H. destruct H as [a c b EL F N R|a c b EL F C R|F N].
    + apply BF. rewrite EL. assert (R' : ascii_part a = [] \/ zlen (@nil Z) + zlen (ascii_part a) + 1 <= mo) by (rewrite zlen_nil; destruct R; [left; auto|right; lia]).
      rewrite (basic_app cap mo a c b [] F M64 Hcap Z0 R').
      cbn [app]. assert (Hc : 0 <= c < 4294967296).
      { rewrite EL in HL. apply Forall_app in HL. destruct HL as (_ & HL). inversion HL; auto. }
      cbn [enc_basic]. unfold permitted in N. destruct (c <? 128) eqn:E; zb; [lia|].
      destruct ((1114111 <? c) || _) eqn:E2; [reflexivity|]. apply orb_false_iff in E2. destruct E2 as (E2 & E3). apply andb_false_iff in E3. destruct E3; zb; lia.
    + apply BF. rewrite EL. apply basic_full; auto.
    + pose proof (encode_shape L mo cap HL M64 Hcap) as SH. destruct (puny_encode L mo cap) as [s|r| |] eqn:E; try contradiction.
      * exfalso. apply encode_iff in E; auto. destruct E as (_ & E1 & E2). apply N in E1. lia.
      * f_equal. destruct (encode_late L mo cap r HL M64 Hcap FT E) as [B|(-> & _)]; [|reflexivity].
        destruct (basic_fail cap mo L [] r HL M64 Hcap Z0 B) as (a & c & b & EL & _ & [(-> & Q1 & _)|(-> & _)]); [|reflexivity].
        exfalso. apply Q1. rewrite EL in F. apply Forall_app in F. destruct F as (_ & F). inversion F; auto.
Qed.
