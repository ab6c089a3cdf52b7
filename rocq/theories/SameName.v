(** The result of lookup is determined by its Unicode form. *)
From Verif Require Import Base PunyBase Uenv DataTypes SpecUtf8 SpecPuny SpecTables SpecLabel SpecNfc SpecLookup Utf8 Utf8Proofs Idna Puny PunyTop
  Lookup LabelProofs NfcProofs MapProofs LookupProofs LookupTr46 LookupIdem LookupTop Api SpecUnicode DecodeProofs RoundTrip Ucd UcdProofs LookupExamples.

Definition no_ace_case (d : list Z) : Prop := ~ xn d -> ~ exists t, ace_label d t.

Lemma plain_form : forall d p, Forall (fun b => 0 < b < 128) d -> ~ xn d -> no_ace_case d -> unicode_of d p -> p = d.
Proof.
  intros d p A N NU [t l At|l _ H _]; [destruct (NU N); eauto|]. apply utf8_ascii_eq; auto. eapply Forall_impl; [|exact A]. cbv beta. lia.
Qed.
Lemma ace_form : forall enc p q, puny_decode enc 63 63 = Ok p -> zlen enc <= 59 -> Forall (fun b => 0 < b < 128 /\ b <> 46) enc -> unicode_of (ace_prefix ++ enc) q -> q = p.
Proof.
  intros enc p q D L F H. apply (unicode_of_fun (ace_prefix ++ enc)); auto.
  - unfold bytes. apply Forall_app. split; [repeat constructor; lia|]. eapply Forall_impl; [|exact F]. cbv beta. lia.
  - rewrite zlen_app. change (zlen ace_prefix) with 4. unfold two64. lia.
  - apply dec_unicode; auto. unfold two64; lia.
Qed.
Lemma decoded_not_ascii : forall enc p, puny_decode enc 63 63 = Ok p -> zlen enc <= 59 -> ~ Forall (fun b => 0 < b < 128) p.
Proof.
  intros enc p D L A. pose proof (decode_safe enc 63 63 ltac:(lia) ltac:(lia) ltac:(unfold two64; lia)) as X. rewrite D in X.
  destruct X as (_ & _ & _ & _ & _ & X). apply Exists_exists in X. destruct X as (c & I & G). rewrite Forall_forall in A. apply A in I. lia.
Qed.

Lemma converted_same : forall U1 U2 f1 f2 a b d1 d2 p, converted U1 f1 a d1 -> converted U2 f2 b d2 -> no_ace_case d1 -> no_ace_case d2 ->
  unicode_of d1 p -> unicode_of d2 p -> d1 = d2.
Proof.
  intros U1 U2 f1 f2 a b d1 d2 p [A1 X1 L1|p1 e1 l1 D1 E1 S1 N1 T1 L1 F1 _ _] [A2 X2 L2|p2 e2 l2 D2 E2 S2 N2 T2 L2 F2 _ _] C1 C2 H1 H2.
  - apply plain_form in H1, H2; auto. congruence.
  - apply plain_form in H1; auto. subst p. pose proof (ace_form _ _ _ D2 L2 F2 H2) as <-. destruct (decoded_not_ascii _ _ D2 L2 A1).
  - apply plain_form in H2; auto. subst p. pose proof (ace_form _ _ _ D1 L1 F1 H1) as <-. destruct (decoded_not_ascii _ _ D1 L1 A2).
  - pose proof (ace_form _ _ _ D1 L1 F1 H1). pose proof (ace_form _ _ _ D2 L2 F2 H2). congruence.
Qed.

Lemma result_labels : forall U src f r, nfc_ok U -> c_string src -> zlen src < two64 -> opt_no_roundtrip f = false ->
  lookup_u8 U src f = Ok r -> (opt_no_tr46 f = true -> no_upper_ace r) ->
  exists ds, dotted ds r /\ Forall (fun d => no_ace_case d /\ exists g s8, converted U g s8 d) ds.
Proof.
  intros U src f r K C L R H NU. apply lookup_converted in H; auto. destruct H as (B & o & ds & P & F & D & Z & CV & TR).
  assert (NU' : Forall no_ace_case ds).
  { destruct (opt_no_tr46 f) eqn:N; [now apply NU|]. destruct (TR eq_refl) as (_ & FX). eapply Forall_impl; [|exact FX].
    intros d Fd. unfold no_ace_case. apply lower_no_ace. eapply Forall_impl; [|exact Fd]. cbv beta. tauto. }
  exists ds. split; [exact D|]. clear - CV NU'. induction CV as [|s8 d ss dd H CV IH]; [constructor|]. inversion NU'; subst. constructor; eauto.
Qed.

Lemma same_form : forall U V a b f g r s n, nfc_ok U -> nfc_ok V -> c_string a -> zlen a < two64 -> c_string b -> zlen b < two64 ->
  opt_no_roundtrip f = false -> opt_no_roundtrip g = false -> lookup_u8 U a f = Ok r -> lookup_u8 V b g = Ok s ->
  (opt_no_tr46 f = true -> no_upper_ace r) -> (opt_no_tr46 g = true -> no_upper_ace s) ->
  unicode_name r n -> unicode_name s n -> r = s.
Proof.
  intros U V a b f g r s n K1 K2 C1 L1 C2 L2 R1 R2 H1 H2 N1 N2 (ds & ps & D1 & F1 & E1 & _) (es & qs & D2 & F2 & E2 & _).
  destruct (result_labels U a f r) as (ds' & D1' & G1); auto. destruct (result_labels V b g s) as (es' & D2' & G2); auto.
  apply dotted_iff in D1, D1', D2, D2'. assert (ds' = ds) as -> by congruence. assert (es' = es) as -> by congruence.
  assert (qs = ps) as -> by (apply dotted_iff in E1, E2; congruence).
  apply dotted_iff in D1, D2. destruct D1 as (_ & _ & ->). destruct D2 as (_ & _ & ->). f_equal.
  clear - F1 F2 G1 G2. revert es F2 G2. induction F1 as [|d p ds ps H F1 IH]; intros es F2 G2; inversion F2 as [|e q es' qs' H' F2']; subst; [reflexivity|].
  inversion G1 as [|? ? (X1 & g1 & s1 & Y1) G1']; subst. inversion G2 as [|? ? (X2 & g2 & s2 & Y2) G2']; subst. f_equal; [|now apply IH].
  eapply converted_same; eauto.
Qed.

Lemma prepared_fun : forall U f src a b, c_string src -> tr46_prepared U f src a -> tr46_prepared U f src b -> a = b.
Proof.
  intros U f src a b C (l1 & m1 & A1 & B1 & C1) (l2 & m2 & A2 & B2 & C2). assert (l1 = l2) as ->.
  { pose proof (utf8_bytes _ _ A1). apply u8_to_u32_iff in A1, A2; auto. congruence. }
  assert (m1 = m2) as -> by congruence. eapply utf8_fun; eauto.
Qed.

Lemma prepared_form : forall U src f r n, nfc_ok U -> c_string src -> zlen src < two64 -> opt_no_roundtrip f = false -> opt_no_tr46 f = false ->
  lookup_u8 U src f = Ok r -> (unicode_name r n <-> exists o, tr46_prepared U f src o /\ unicode_name o n).
Proof.
  intros U src f r n K C L R N H. pose proof (lookup_shape U src f r K C L H) as (A & _ & ZZ).
  assert (CR : c_string r) by (eapply Forall_impl; [|exact A]; cbv beta; lia). assert (LR : zlen r < two64) by (unfold two64; lia).
  assert (O : forall o, tr46_prepared U f src o -> c_string o /\ zlen o < two64).
  { intros o P. apply lookup_converted in H; auto. destruct H as (_ & o' & ds & Q & _). destruct Q as [N'|o' l m N' T]; [rewrite eff_no_tr46 in N'; congruence|].
    assert (P' : tr46_prepared U f src o').
    { exists l, m. split; [apply (k_src _ _ _ _ _ _ T)|]. split; [|apply (k_out _ _ _ _ _ _ T)].
      pose proof (k_nfc _ _ _ _ _ _ T) as X. now rewrite eff_transitional, eff_std3 in X. }
    rewrite (prepared_fun U f src o o') by auto. destruct (tr46_out _ _ _ _ _ _ T) as (CO & LO). split; [exact CO|]. unfold two64. lia. }
  destruct (unicode_of_result U src f r) as (n0 & E & _); auto; [congruence|].
  destruct (unicode_of_prepared U src f r n0) as (o & P & E'); auto. destruct (O o P) as (CO & LO). split.
  - intros X. apply unicode_iff in X; auto. exists o. split; [exact P|]. apply unicode_iff; auto. congruence.
  - intros (o2 & P2 & X). rewrite (prepared_fun U f src o2 o) in X by auto. apply unicode_iff in X; auto. apply unicode_iff; auto. congruence.
Qed.

Lemma same_iff : forall U a b f g r s, nfc_ok U -> c_string a -> zlen a < two64 -> c_string b -> zlen b < two64 ->
  opt_no_roundtrip f = false -> opt_no_roundtrip g = false -> opt_no_tr46 f = false -> opt_no_tr46 g = false ->
  lookup_u8 U a f = Ok r -> lookup_u8 U b g = Ok s ->
  (r = s <-> exists o q n, tr46_prepared U f a o /\ tr46_prepared U g b q /\ unicode_name o n /\ unicode_name q n).
Proof.
  intros U a b f g r s K C1 L1 C2 L2 R1 R2 T1 T2 H1 H2. split.
  - intros <-. destruct (unicode_of_result U a f r) as (n & E & _); auto; [congruence|].
    destruct (unicode_of_prepared U a f r n) as (o & P & _); auto. destruct (unicode_of_prepared U b g r n) as (q & Q & _); auto.
    pose proof (lookup_shape U a f r K C1 L1 H1) as (A & _ & ZZ).
    assert (X : unicode_name r n) by (apply unicode_iff; auto; [eapply Forall_impl; [|exact A]; cbv beta; lia|unfold two64; lia]).
    exists o, q, n. split; [exact P|]. split; [exact Q|]. split.
    + apply (prepared_form U a f r n) in X; auto. destruct X as (o' & P' & X). now rewrite (prepared_fun U f a o o').
    + apply (prepared_form U b g r n) in X; auto. destruct X as (o' & P' & X). now rewrite (prepared_fun U g b q o').
  - intros (o & q & n & P & Q & X & Y). apply (same_form U U a b f g r s n); auto; try congruence.
    + apply (prepared_form U a f r n); eauto.
    + apply (prepared_form U b g s n); eauto.
Qed.

(** Without the round trip "xn--tda" and "xn--td_" stay what they are. *)
Lemma same_needs_roundtrip : exists a b r s n, nfc_ok ucd /\ c_string a /\ c_string b /\ lookup_u8 ucd a IDN2_NO_ALABEL_ROUNDTRIP = Ok r /\
  lookup_u8 ucd b IDN2_NO_ALABEL_ROUNDTRIP = Ok s /\ unicode r = Ok n /\ unicode s = Ok n /\ r <> s.
Proof.
  exists [120;110;45;45;116;100;97], [120;110;45;45;116;100;95], [120;110;45;45;116;100;97], [120;110;45;45;116;100;95], [252].
  split; [exact ucd_nfc_ok|]. split; [unfold c_string; repeat (apply Forall_cons; [lia|]); apply Forall_nil|].
  split; [unfold c_string; repeat (apply Forall_cons; [lia|]); apply Forall_nil|]. split; [vm_compute; reflexivity|]. split; [vm_compute; reflexivity|].
  split; [vm_compute; reflexivity|]. split; [vm_compute; reflexivity|]. discriminate.
Qed.
(** Without TR46 "XN--TDA" does. *)
Lemma same_needs_lower : exists a b r s n, nfc_ok ucd /\ c_string a /\ c_string b /\ lookup_u8 ucd a IDN2_NO_TR46 = Ok r /\
  lookup_u8 ucd b IDN2_NO_TR46 = Ok s /\ unicode r = Ok n /\ unicode s = Ok n /\ r <> s.
Proof.
  exists [120;110;45;45;116;100;97], [88;78;45;45;84;68;65], [120;110;45;45;116;100;97], [88;78;45;45;84;68;65], [252].
  split; [exact ucd_nfc_ok|]. split; [unfold c_string; repeat (apply Forall_cons; [lia|]); apply Forall_nil|].
  split; [unfold c_string; repeat (apply Forall_cons; [lia|]); apply Forall_nil|]. split; [vm_compute; reflexivity|]. split; [vm_compute; reflexivity|].
  split; [vm_compute; reflexivity|]. split; [vm_compute; reflexivity|]. discriminate.
Qed.
(** "Bücher.ex", as it is and as an A-label with other case. *)
Definition xn_upper := [88;110;45;45;98;67;104;101;114;45;107;118;97;46;101;120].
Lemma case_same : nfc_ok ucd /\ c_string buecher /\ c_string xn_upper /\ lookup_u8 ucd buecher 0 = Ok xn_buecher /\ lookup_u8 ucd xn_upper 0 = Ok xn_buecher /\
  tr46_prepared ucd 0 buecher [98;195;188;99;104;101;114;46;101;120] /\ tr46_prepared ucd 0 xn_upper xn_buecher /\
  unicode [98;195;188;99;104;101;114;46;101;120] = Ok [98;252;99;104;101;114;46;101;120] /\ unicode xn_buecher = Ok [98;252;99;104;101;114;46;101;120].
Proof.
  split; [exact ucd_nfc_ok|]. split; [exact buecher_c|]. split; [unfold c_string, xn_upper; in_range_list|].
  split; [vm_compute; reflexivity|]. split; [vm_compute; reflexivity|]. split; [|split; [|vm_compute; auto]].
  - exists [66;252;99;104;101;114;46;101;120], [98;252;99;104;101;114;46;101;120].
    split; [apply u32_to_u8_iff; reflexivity|]. split; [vm_compute; reflexivity|]. apply u32_to_u8_iff; reflexivity.
  - exists xn_upper, xn_buecher. split; [apply u32_to_u8_iff; reflexivity|]. split; [vm_compute; reflexivity|]. apply u32_to_u8_iff; reflexivity.
Qed.
