(** What the labels of a successful lookup have passed, and idempotency. *)
From Verif Require Import Base PunyBase PunyRT PunyInv Uenv DataTypes DataCsv SpecUtf8 SpecPuny SpecTables SpecLabel SpecNfc SpecLookup Gentr46 Tr46Map
  Tr46Facts Utf8 Utf8Proofs Idna Puny PunyTop Lookup LabelProofs NfcProofs MapProofs LookupProofs LookupTr46.

(** ** The tests, unfolded *)
Ltac bits := repeat match goal with |- context [Z.testbit ?w ?k] =>
  let v := eval vm_compute in (Z.testbit w k) in change (Z.testbit w k) with v end.
Definition tr46_pass (U : uenv) (tr std3 : bool) (l : list Z) : Prop :=
  ok_nfc U l /\ ok_2hyphen l /\ ok_hyphen_startend l /\ ok_leading U l /\ ok_dot l /\ ok_status l tr (negb std3).
Lemma tr46_what_eq : forall flags ace, tr46_what flags ace =
  match negb ace && opt_transitional flags, opt_std3 flags with
  | true, true => 0x100f | true, false => 0x500f | false, true => 0x200f | false, false => 0x600f end.
Proof.
  intros flags ace. unfold tr46_what. rewrite has_transitional, has_std3.
  destruct (negb ace && opt_transitional flags), (opt_std3 flags); reflexivity.
Qed.
Lemma tr46_pass_iff : forall U flags ace l, Forall (fun c => 0 <= c) l ->
  (label_test U (tr46_what flags ace) l = Ok tt <-> tr46_pass U (negb ace && opt_transitional flags) (opt_std3 flags) l).
Proof.
  intros U flags ace l F. rewrite label_test_ok_iff by auto. rewrite tr46_what_eq. unfold label_tests_spec, tr46_pass. cbv zeta.
  destruct (negb ace && opt_transitional flags), (opt_std3 flags); bits; cbn [orb andb negb];
  rewrite !Forall_cons_iff; cbn [passes]; unfold ok_normalises;
  (split; [intros H; decompose [and] H; refine (conj _ (conj _ (conj _ (conj _ (conj _ _))))); auto
          |intros (A1 & A2 & A3 & A4 & A5 & A6); repeat (split; [intros X; first [discriminate X | assumption | rewrite A1; discriminate]|]); constructor]).
Qed.
Definition lookup_pass (U : uenv) (flags : Z) (l : list Z) : Prop :=
  ok_nfc U l /\ ok_2hyphen l /\ ok_leading U l /\ ok_disallowed l (opt_nontransitional flags && negb (opt_std3 flags)) /\
  ok_contextj_rule U l /\ ok_no l UNASSIGNED /\ ok_bidi U l /\
  (opt_nontransitional flags = true -> ok_dot l /\ ok_status l false (negb (opt_std3 flags))).
Lemma label_tests_eq : forall flags, label_tests flags =
  match opt_nontransitional flags, opt_std3 flags with
  | true, true => 0x2d5b | true, false => 0x6d5b | false, true => 0xd5b | false, false => 0x4d5b end.
Proof.
  intros flags. unfold label_tests. rewrite has_nontransitional, has_std3. destruct (opt_nontransitional flags), (opt_std3 flags); reflexivity.
Qed.
Lemma lookup_pass_iff : forall U flags l, Forall (fun c => 0 <= c) l ->
  (label_test U (label_tests flags) l = Ok tt <-> lookup_pass U flags l).
Proof.
  intros U flags l F. rewrite label_test_ok_iff by auto. rewrite label_tests_eq. unfold label_tests_spec, lookup_pass. cbv zeta.
  destruct (opt_nontransitional flags), (opt_std3 flags); bits; cbn [orb andb negb];
  rewrite !Forall_cons_iff; cbn [passes]; unfold ok_normalises;
  (split; [intros H; decompose [and] H; refine (conj _ (conj _ (conj _ (conj _ (conj _ (conj _ (conj _ _))))))); auto
          |intros (A1 & A2 & A3 & A4 & A5 & A6 & A7 & A8);
           repeat (split; [intros X; first [discriminate X | assumption | rewrite A1; discriminate | apply A8; reflexivity]|]); constructor]).
  all: intros X; discriminate X.
Qed.

(** ** Decoding what was encoded *)
Lemma decode_ascii : forall t l, puny_decode t 63 63 = Ok l -> zlen t < two64 -> Forall (fun c => 0 < c < 128) t.
Proof.
  intros t l D L. destruct (puny_decode_inv t 63 63 l) as (LD & _); auto; try (unfold maxint; lia).
  eapply Forall_impl; [|exact LD]. unfold ldhu. cbv beta. intros; lia.
Qed.
Lemma decode_no_tail : forall t l, puny_decode t 63 63 = Ok l -> zlen t < two64 -> t <> [] /\ (forall r, t <> r ++ [45]).
Proof.
  intros t l D L. destruct (puny_decode_inv t 63 63 l) as (LD & bs & tail & E & N & N45 & _); auto; try (unfold maxint; lia).
  split.
  - intros ->. destruct bs; destruct tail; solve [discriminate | congruence].
  - intros r Er. destruct (exists_last N) as (t' & x & Et). rewrite E, Et in Er. rewrite !app_assoc in Er. apply app_inj_tail in Er.
    destruct Er as (_ & ->). apply N45. rewrite Et. apply in_or_app. right. now left.
Qed.
Lemma enc_decodes : forall p enc, Forall scalar p -> puny_encode p 59 59 = Ok enc ->
  Forall (fun c => c < 128 -> ldh_or_underscore c) p -> Exists (fun c => 128 <= c) p -> puny_decode enc 63 63 = Ok p.
Proof.
  intros p enc S E A X. pose proof (puny_encode_len _ _ _ _ E) as L.
  pose proof (encode_safe p 59 59 (scalar_u32 _ S) ltac:(unfold two64; lia) ltac:(lia)) as (_ & L2). specialize (L2 enc E).
  destruct (encode_decode p 59 59 enc 63 63 (scalar_u32 _ S) ltac:(unfold two64; lia) ltac:(lia) E A X ltac:(lia) ltac:(lia)) as [D|(D & _)]; [exact D|lia].
Qed.
Lemma enc_basic_ascii : forall cap mo l o o', Forall (fun c => c < 128) l -> enc_basic cap mo l o = Ok o' -> o' = o ++ l.
Proof.
  intros cap mo l o o' F. revert o. induction F as [|c l Hc F IH]; intros o H; cbn [enc_basic] in H.
  - injection H as <-. now rewrite app_nil_r.
  - assert (c <? 128 = true) as E by now apply Z.ltb_lt. rewrite E in H. destruct (_ <? 2); [discriminate|].
    apply bind_ok in H. destruct H as (o1 & P & H). unfold put in P. destruct (zlen o <? cap); [|discriminate]. injection P as <-.
    apply IH in H. rewrite H, <- app_assoc. reflexivity.
Qed.
Lemma encode_ascii : forall p enc, Forall (fun c => c < 128) p -> puny_encode p 59 59 = Ok enc -> enc = [] \/ exists r, enc = r ++ [45].
Proof.
  intros p enc A H. unfold puny_encode in H. destruct (maxint <? zlen p) eqn:M; [discriminate|]. apply Z.ltb_ge in M.
  apply bind_ok in H. destruct H as (o & B & H). apply enc_basic_ascii in B; auto. cbn [app] in B. subst o.
  apply bind_ok in H. destruct H as (o' & P & H). assert (u32 (zlen p) = zlen p) as EU.
  { apply u32_id. pose proof (zlen_nonneg _ p). unfold maxint, two32 in *. lia. }
  rewrite EU in *. cbn [enc_main e_h e_out] in H. rewrite Z.ltb_irrefl in H. injection H as <-.
  destruct (0 <? zlen p) eqn:E0.
  - right. unfold put in P. destruct (_ <? 59); [|discriminate]. injection P as <-. now exists p.
  - left. injection P as <-. apply Z.ltb_ge in E0. destruct p as [|x p]; [reflexivity|]. rewrite zlen_cons in E0. pose proof (zlen_nonneg _ p). lia.
Qed.
Lemma casecmp_map : forall a b, casecmp_eq a b = true <-> map c_tolower a = map c_tolower b.
Proof.
  induction a as [|x a IH]; intros [|y b]; cbn [casecmp_eq map]; try (split; congruence).
  rewrite andb_true_iff, Z.eqb_eq, IH. split; [intros (-> & ->); reflexivity|intros E; injection E; auto].
Qed.
Lemma tolower_45 : forall c, c_tolower c = 45 -> c = 45.
Proof. intros c. unfold c_tolower. destruct (_ && _) eqn:E; [|auto]. rewrite andb_true_iff, !Z.leb_le in E. lia. Qed.
Lemma casecmp_not_ascii : forall t l p enc, puny_decode t 63 63 = Ok l -> zlen t < two64 -> puny_encode p 59 59 = Ok enc ->
  casecmp_eq (ace_prefix ++ t) (ace_prefix ++ enc) = true -> Exists (fun c => 128 <= c) p.
Proof.
  intros t l p enc D L E CC. destruct (Exists_dec (fun c => 128 <= c) p) as [X|X]; [intros x; apply Z_le_dec|exact X|exfalso].
  assert (A : Forall (fun c => c < 128) p).
  { apply Forall_forall. intros c Hc. destruct (Z.lt_ge_cases c 128); auto. exfalso. apply X. apply Exists_exists. eauto. }
  apply casecmp_map in CC. rewrite !map_app in CC. apply app_inv_head in CC.
  destruct (decode_no_tail t l D L) as (N1 & N2). destruct (encode_ascii p enc A E) as [->|(r & ->)].
  - destruct t; [congruence|discriminate].
  - rewrite map_app in CC. destruct (exists_last N1) as (t' & x & ->). rewrite map_app in CC. cbn [map] in CC. apply app_inj_tail in CC.
    destruct CC as (_ & CC). change (c_tolower 45) with 45 in CC. apply tolower_45 in CC. subst x. now apply (N2 t').
Qed.

(** ** ASCII code points *)
Lemma csv_ascii : forallb (fun c => match csv_property c with DISALLOWED => true | _ => ((97 <=? c) && (c <=? 122)) || ((48 <=? c) && (c <=? 57)) || (c =? 45) end) (zrange 128) = true.
Proof. vm_cast_no_check (eq_refl true). Qed.
Lemma csv_ascii_ldh : forall c, 0 <= c < 128 -> csv_property c <> DISALLOWED -> lower_or_digit c \/ c = 45.
Proof.
  intros c R N. pose proof csv_ascii as A. rewrite forallb_forall in A. specialize (A c (zrange_in c 128 R)). unfold lower_or_digit.
  assert (((97 <=? c) && (c <=? 122)) || ((48 <=? c) && (c <=? 57)) || (c =? 45) = true) as B by (destruct (csv_property c); auto; congruence).
  rewrite !orb_true_iff, !andb_true_iff, !Z.leb_le, Z.eqb_eq in B. lia.
Qed.
(** Code points that the mapping leaves alone. *)
Definition fixed (tr std3 : bool) (c : Z) : Prop := map1 tr std3 c = [c] /\ status_of c <> Disallowed.
Lemma lower_digit_valid : forall c, lower_or_digit c \/ c = 45 \/ c = 46 -> status_of c = Valid.
Proof.
  intros c H. rewrite status_ascii by (unfold lower_or_digit in H; lia). unfold ascii_status, lower_or_digit in *.
  destruct ((65 <=? c) && (c <=? 90)) eqn:E1; [rewrite andb_true_iff, !Z.leb_le in E1; lia|].
  destruct (_ || _) eqn:E2; [reflexivity|]. rewrite !orb_false_iff, !andb_false_iff, !Z.leb_gt, !Z.eqb_neq in E2. lia.
Qed.
Lemma valid_fixed : forall tr std3 c, status_of c = Valid -> fixed tr std3 c.
Proof. intros tr std3 c H. unfold fixed, map1. rewrite H. split; congruence. Qed.
Lemma status_fixed : forall tr tr' std3 c, 0 <= c < 128 ->
  (status_of c = Valid \/ (tr = false /\ status_of c = Deviation) \/ (negb std3 = true /\ is_std3 c)) -> fixed tr' std3 c /\ ~ (65 <= c <= 90).
Proof.
  intros tr tr' std3 c R H. unfold fixed, map1. rewrite status_ascii in * by auto. unfold is_std3 in H. rewrite status_ascii in H by auto.
  unfold ascii_status in *. destruct ((65 <=? c) && (c <=? 90)) eqn:E1; [intuition discriminate|].
  rewrite andb_false_iff, !Z.leb_gt in E1. split; [|lia].
  destruct (_ || _); [split; congruence|]. destruct std3; [cbn [negb] in H; intuition discriminate|split; congruence].
Qed.
Lemma fixed_map : forall tr std3 l, Forall (fixed tr std3) l -> uts46_map tr std3 l = l /\ existsb disallowedb l = false.
Proof.
  intros tr std3 l F. induction F as [|c l (H1 & H2) F (IH1 & IH2)]; [auto|]. unfold uts46_map in *. cbn [flat_map existsb].
  rewrite H1, IH1, IH2. split; [reflexivity|]. rewrite orb_false_r. unfold disallowedb. destruct (status_of c); try reflexivity. congruence.
Qed.

(** ** One label *)
Lemma utf8_ascii_eq : forall l s, utf8 l s -> Forall (fun b => b < 128) s -> l = s.
Proof.
  intros l s H A. pose proof (utf8_bytes _ _ H) as B. assert (A' : Forall (fun c => 0 <= c < 128) s).
  { unfold bytes in B. rewrite Forall_forall in *. intros x Hx. specialize (A x Hx). specialize (B x Hx). lia. }
  apply u8_to_u32_iff in H; auto. rewrite u8_to_u32_ascii in H by auto. congruence.
Qed.
Lemma utf8_fun : forall l s1 s2, utf8 l s1 -> utf8 l s2 -> s1 = s2.
Proof. intros l s1 s2 H1 H2. apply u32_to_u8_iff in H1, H2. congruence. Qed.
Lemma norm_fixed : forall U nfc l p, norm U nfc l p -> ue_nfc U l = Some l -> p = l.
Proof. intros U nfc l p H N. destruct H; congruence. Qed.
Lemma permitted_nonneg : forall l, Forall permitted l -> Forall (fun c => 0 <= c) l.
Proof. intros l. apply Forall_impl. unfold permitted. intros; lia. Qed.

(** A label of the prepared name whose conversion succeeded: either it is
    plain ASCII, or the result is "xn--" and the encoding of a label [p] that
    decodes back to [p]; [p] passed the tests. *)
Inductive converted (U : uenv) (flags : Z) (s8 : list Z) : list Z -> Prop :=
| cv_plain : Forall (fun b => 0 < b < 128) s8 -> ~ xn s8 -> zlen s8 <= 63 -> converted U flags s8 s8
| cv_ace : forall p enc l, puny_decode enc 63 63 = Ok p -> puny_encode p 59 59 = Ok enc -> Forall scalar p -> ue_nfc U p = Some p ->
    (opt_transitional flags = false -> lookup_pass U flags p) -> zlen enc <= 59 -> Forall (fun b => 0 < b < 128 /\ b <> 46) enc ->
    (utf8 l s8 \/ exists t, s8 = ace_prefix ++ t /\ puny_decode t 63 63 = Ok l) -> norm U (opt_nfc flags) l p ->
    converted U flags s8 (ace_prefix ++ enc).

Lemma converted_label : forall U flags s8 d, nfc_ok U -> opt_no_roundtrip flags = false -> converted U flags s8 d -> label U d 63 flags = Ok d.
Proof.
  intros U flags s8 d K R [A N L|p enc l D E S NF T L F _ _].
  - apply label_plain; auto. eapply Forall_impl; [|exact A]. cbv beta. lia.
  - destruct (u32_to_u8_total p S) as (s' & C). eapply (label_ace U flags enc p s' enc); eauto.
    + eapply Forall_impl; [|exact F]. cbv beta. lia.
    + constructor; [apply norm_id| |exact E]. intros HT. apply lookup_pass_iff; [now apply scalar_nonneg|]. now apply T.
    + apply casecmp_refl.
Qed.
(** Without TR46. *)
Lemma label_converted_raw : forall U flags s8 d, nfc_ok U -> plain_label s8 -> opt_no_roundtrip flags = false ->
  opt_transitional flags = false -> opt_nontransitional flags = false ->
  label U s8 63 flags = Ok d -> converted U flags s8 d.
Proof.
  intros U flags s8 d K P R T NT H. pose proof (label_inv _ _ _ _ H) as I.
  destruct I as [A N L|t s' l p enc A _ E D C TO CC|l p enc A E TO RT].
  - apply cv_plain; auto. destruct P as (P & _). rewrite Forall_forall in *. intros b Hb. specialize (A b Hb). specialize (P b Hb). lia.
  - assert (LT : zlen t < two64). { destruct P as (_ & _ & P). rewrite E, zlen_app in P. change (zlen ace_prefix) with 4 in P. lia. }
    destruct (decoded_label t l s' D LT C) as (S & N0 & N46). destruct (tail_shape U flags l p enc K S N0 N46 TO) as (S' & _ & _ & L' & F').
    pose proof (proj1 (lookup_pass_iff U flags p (scalar_nonneg _ S')) (t_test _ _ _ _ _ TO T)) as LP.
    apply (cv_ace U flags s8 p enc l); auto.
    + apply enc_decodes; [exact S'|exact (t_enc _ _ _ _ _ TO)| |].
      * destruct LP as (_ & _ & _ & LP & _). rewrite NT in LP. cbn [andb] in LP. unfold ok_disallowed in LP. rewrite Forall_forall in *. intros c Hc Hlt.
        specialize (LP c Hc). specialize (S' c Hc). unfold scalar in S'. destruct LP as [LP|(X & _)]; [|discriminate].
        destruct (csv_ascii_ldh c ltac:(lia) LP) as [X| ->]; unfold ldh_or_underscore, lower_or_digit in *; lia.
      * rewrite E in CC. eapply casecmp_not_ascii; eauto. exact (t_enc _ _ _ _ _ TO).
    + exact (t_enc _ _ _ _ _ TO).
    + apply LP.
    + right. exists t. auto.
    + exact (t_norm _ _ _ _ _ TO).
  - destruct (u8_label s8 l P E) as (S & N0 & N46). destruct (tail_shape U flags l p enc K S N0 N46 TO) as (S' & _ & _ & L' & F').
    pose proof (proj1 (lookup_pass_iff U flags p (scalar_nonneg _ S')) (t_test _ _ _ _ _ TO T)) as LP.
    apply (cv_ace U flags s8 p enc l); auto.
    + exact (t_enc _ _ _ _ _ TO).
    + apply LP.
    + left. apply u8_to_u32_iff in E; auto. apply c_string_bytes. apply P.
    + exact (t_norm _ _ _ _ _ TO).
Qed.
(** With TR46: in addition the tests of _tr46 have passed. *)
Lemma label_converted_tr46 : forall U flags s s8 d, nfc_ok U -> plain_label s8 -> opt_no_roundtrip flags = false ->
  utf8 s s8 -> checked U flags s -> label U s8 63 flags = Ok d ->
  converted U flags s8 d /\ checked U flags d /\ Forall (fun c => fixed (opt_transitional flags) (opt_std3 flags) c /\ ~ (65 <= c <= 90)) d.
Proof.
  intros U flags s s8 d K P R US CK H. pose proof (label_inv _ _ _ _ H) as I.
  assert (ENC : forall p enc, Forall scalar p -> ~ In 0 p -> ~ In 46 p -> puny_encode p 59 59 = Ok enc ->
    ok_status p false (negb (opt_std3 flags)) ->
    Forall (fun c => fixed (opt_transitional flags) (opt_std3 flags) c /\ ~ (65 <= c <= 90)) (ace_prefix ++ enc)).
  { intros p enc S N0 N46 E OS. destruct (enc_shape p enc S N0 N46 E) as (_ & A & B). apply Forall_app. split.
    - apply Forall_forall. intros c Hc. split; [|cbn in Hc; lia]. apply valid_fixed. apply lower_digit_valid. unfold lower_or_digit. cbn in Hc. lia.
    - apply Forall_forall. intros c Hc. rewrite Forall_forall in A. specialize (A c Hc). destruct (B c Hc) as [X|X].
      + unfold ok_status in OS. rewrite Forall_forall in OS. apply (status_fixed false _ _ c ltac:(lia)). apply OS. exact X.
      + split; [|unfold lower_or_digit in X; lia]. apply valid_fixed. apply lower_digit_valid. tauto. }
  destruct I as [A N L|t s' l p enc A _ E D C TO CC|l p enc A E TO RT].
  - assert (s = s8) as -> by (eapply utf8_ascii_eq; eauto).
    assert (A' : Forall (fun b => 0 < b < 128) s8).
    { destruct P as (P & _). rewrite Forall_forall in *. intros b Hb. specialize (A b Hb). specialize (P b Hb). lia. }
    split; [now apply cv_plain; auto|]. split; [exact CK|]. destruct CK as [NX TT|t t8 name E8 _ _ _]; [|exfalso; apply (N R); now exists t].
    apply tr46_pass_iff in TT; [|eapply Forall_impl; [|exact A']; cbv beta; lia]. destruct TT as (_ & _ & _ & _ & _ & OS). unfold ok_status in OS.
    rewrite Forall_forall in *. intros c Hc. specialize (A' c Hc). eapply status_fixed; [lia|]. apply OS. exact Hc.
  - assert (s = s8) as -> by (eapply utf8_ascii_eq; eauto).
    assert (LT : zlen t < two64). { destruct P as (_ & _ & P). rewrite E, zlen_app in P. change (zlen ace_prefix) with 4 in P. lia. }
    destruct (decoded_label t l s' D LT C) as (S & N0 & N46).
    assert (TP : tr46_pass U false (opt_std3 flags) l).
    { destruct CK as [NX _|t0 t8 name E8 U8 D8 TT]; [exfalso; apply NX; now exists t|]. rewrite E in E8. apply app_inv_head in E8. subst t0.
      pose proof (decode_ascii t l D LT) as AT. assert (t8 = t) as ->.
      { apply (utf8_fun t); auto. apply utf8_ascii. eapply Forall_impl; [|exact AT]. cbv beta. lia. }
      rewrite D in D8. injection D8 as <-. apply tr46_pass_iff in TT; [exact TT|now apply scalar_nonneg]. }
    pose proof (norm_fixed _ _ _ _ (t_norm _ _ _ _ _ TO) (proj1 TP)) as ->.
    destruct (tail_shape U flags l l enc K S N0 N46 TO) as (_ & _ & _ & L' & F').
    destruct (decoded t l D LT) as (_ & _ & _ & _ & DA & DX).
    pose proof (enc_decodes l enc S (t_enc _ _ _ _ _ TO) DA DX) as DE.
    assert (CV : converted U flags s8 (ace_prefix ++ enc)).
    { apply (cv_ace U flags s8 l enc l); auto.
      - exact (t_enc _ _ _ _ _ TO).
      - apply TP.
      - intros T. apply lookup_pass_iff; [now apply scalar_nonneg|]. now apply (t_test _ _ _ _ _ TO).
      - right. exists t. auto.
      - exact (t_norm _ _ _ _ _ TO). }
    split; [exact CV|]. split; [|eapply ENC; eauto; [exact (t_enc _ _ _ _ _ TO)|apply TP]].
    apply (chk_ace U flags _ enc enc l); auto.
    + apply utf8_ascii. eapply Forall_impl; [|exact F']. cbv beta. lia.
    + apply tr46_pass_iff; [now apply scalar_nonneg|]. exact TP.
  - destruct (u8_label s8 l P E) as (S & N0 & N46). assert (l = s) as ->.
    { apply u8_to_u32_iff in US; [congruence|]. apply c_string_bytes. apply P. }
    assert (TP0 : tr46_pass U (opt_transitional flags) (opt_std3 flags) s).
    { destruct CK as [NX TT|t0 t8 name E8 U8 D8 _].
      - apply tr46_pass_iff in TT; [|now apply scalar_nonneg]. exact TT.
      - exfalso. apply A. rewrite E8 in US. assert (US2 : utf8 (ace_prefix ++ t0) (ace_prefix ++ t8)).
        { apply u32_to_u8_iff. rewrite u32_to_u8_app. apply u32_to_u8_iff in U8. rewrite U8. reflexivity. }
        rewrite (utf8_fun _ _ _ US US2) in *. apply Forall_app. split; [repeat constructor|].
        eapply Forall_impl; [|apply (decode_ascii t8 name D8)]; [cbv beta; lia|].
        destruct P as (_ & _ & P). rewrite zlen_app in P. change (zlen ace_prefix) with 4 in P. lia. }
    assert (TP : tr46_pass U false (opt_std3 flags) s).
    { destruct TP0 as (T1 & T2 & T3 & T4 & T5 & T6). refine (conj T1 (conj T2 (conj T3 (conj T4 (conj T5 _))))).
      eapply Forall_impl; [|exact T6]. cbv beta. tauto. }
    pose proof (norm_fixed _ _ _ _ (t_norm _ _ _ _ _ TO) (proj1 TP)) as ->.
    destruct (tail_shape U flags s s enc K S N0 N46 TO) as (_ & _ & _ & L' & F').
    assert (CV : converted U flags s8 (ace_prefix ++ enc)).
    { apply (cv_ace U flags s8 s enc s); auto.
      - exact (t_enc _ _ _ _ _ TO).
      - apply TP.
      - intros T. apply lookup_pass_iff; [now apply scalar_nonneg|]. now apply (t_test _ _ _ _ _ TO).
      - exact (t_norm _ _ _ _ _ TO). }
    split; [exact CV|]. split; [|eapply ENC; eauto; [exact (t_enc _ _ _ _ _ TO)|apply TP]].
    apply (chk_ace U flags _ enc enc s); auto.
    + apply utf8_ascii. eapply Forall_impl; [|exact F']. cbv beta. lia.
    + apply tr46_pass_iff; [now apply scalar_nonneg|]. exact TP.
Qed.

(** ** The whole name *)
Lemma split_app_nodot : forall a s, ~ In 46 a -> split_dots (a ++ s) =
  match split_dots s with x :: xs => (a ++ x) :: xs | [] => [a] end.
Proof.
  induction a as [|c a IH]; intros s N.
  - cbn [app]. pose proof (split_nonempty s). destruct (split_dots s); congruence.
  - cbn [app split_dots]. destruct (c =? 46) eqn:E; [apply Z.eqb_eq in E; subst; exfalso; apply N; now left|].
    rewrite IH by (intros H; apply N; now right). destruct (split_dots s); reflexivity.
Qed.
Lemma utf8_split : forall l s, utf8 l s -> Forall2 utf8 (split_dots l) (split_dots s).
Proof.
  induction 1 as [|c bs l s Hc Hs IH]; [repeat constructor|]. cbn [split_dots]. destruct (c =? 46) eqn:E.
  - apply Z.eqb_eq in E. subst c. apply uctomb_complete in Hc. change (u8_uctomb 46) with (Some [46]) in Hc. injection Hc as <-.
    cbn [app split_dots]. change (46 =? 46) with true. cbv iota. constructor; [constructor|exact IH].
  - apply Z.eqb_neq in E. rewrite split_app_nodot by (intros H; apply E; now apply (utf8_char_nodot c bs)).
    pose proof (split_nonempty l). destruct IH as [|x y xs ys]; [congruence|]. constructor; [now constructor|auto].
Qed.

Lemma lookup_converted : forall U src flags r, nfc_ok U -> c_string src -> zlen src < two64 -> opt_no_roundtrip flags = false ->
  lookup_u8 U src flags = Ok r ->
  ~ bad_flags flags /\ exists o ds, prepared U (eff flags) src o /\
    Forall2 (fun l d => label U l 63 (eff flags) = Ok d) (split_dots o) ds /\ dotted ds r /\
    (zlen r <= 253 \/ (zlen r = 254 /\ last ds [] = [])) /\
    Forall2 (converted U (eff flags)) (split_dots o) ds /\
    (opt_no_tr46 flags = false -> Forall (checked U (eff flags)) ds /\
       Forall (Forall (fun c => fixed (opt_transitional flags) (opt_std3 flags) c /\ ~ (65 <= c <= 90))) ds).
Proof.
  intros U src flags r K C L R H. apply lookup_inv in H; auto. destruct H as (B & o & ds & P & F & -> & Z). split; [exact B|]. exists o, ds.
  destruct (prepared_ok _ _ _ _ P C L) as (C' & L'). pose proof (ds_dotted U _ o ds K C' L' F) as D.
  split; [exact P|]. split; [exact F|]. split; [exact D|]. split; [exact Z|].
  pose proof (plain_split o C' L') as PS. rewrite Forall_forall in PS. rewrite <- (eff_no_roundtrip flags) in R.
  destruct P as [N|o l n N T].
  - rewrite eff_no_tr46 in N. split; [|congruence]. eapply Forall2_impl_in; [exact F|]. intros s8 d I Hd.
    apply (label_converted_raw U (eff flags)); auto.
    + rewrite eff_transitional. destruct (opt_transitional flags) eqn:X; [|reflexivity]. exfalso. apply B. unfold bad_flags. tauto.
    + rewrite eff_nontransitional by auto. rewrite N. reflexivity.
  - pose proof (k_checked _ _ _ _ _ _ T) as CK. pose proof (utf8_split _ _ (k_out _ _ _ _ _ _ T)) as US.
    assert (G : Forall2 (fun s8 d => converted U (eff flags) s8 d /\ checked U (eff flags) d /\
       Forall (fun c => fixed (opt_transitional (eff flags)) (opt_std3 (eff flags)) c /\ ~ (65 <= c <= 90)) d) (split_dots o) ds).
    { clear Z D. revert ds F. induction US as [|s s8 ss ss8 HU US IH]; intros ds F; inversion F; subst; constructor.
      - inversion CK; subst. eapply label_converted_tr46; eauto. apply PS. now left.
      - inversion CK; subst. apply IH; auto. intros x Hx. apply PS. now right. }
    rewrite eff_transitional, eff_std3 in G. split.
    + eapply Forall2_impl_in; [exact G|]. cbv beta. tauto.
    + intros _. split; (eapply Forall2_right; [exact G|]); cbv beta; tauto.
Qed.

Lemma Forall2_self : forall (A : Type) (P : A -> A -> Prop) l, Forall (fun a => P a a) l -> Forall2 P l l.
Proof. induction 1; constructor; auto. Qed.
Lemma lookup_idempotent : forall U src flags r, nfc_ok U -> c_string src -> zlen src < two64 -> opt_no_roundtrip flags = false ->
  lookup_u8 U src flags = Ok r -> lookup_u8 U r flags = Ok r.
Proof.
  intros U src flags r K C L R H. pose proof (lookup_shape U src flags r K C L H) as (A & _ & ZZ).
  apply lookup_converted in H; auto. destruct H as (B & o & ds & P & F & D & Z & CV & TR).
  assert (A' : Forall (fun c => 0 <= c < 128) r) by (eapply Forall_impl; [|exact A]; cbv beta; lia).
  assert (LT : zlen r < 255) by lia.
  assert (CS : c_string r) by (eapply Forall_impl; [|exact A]; cbv beta; lia).
  assert (SD : split_dots r = ds) by now apply dotted_iff.
  pose proof D as (D1 & D2 & D3). rewrite D3 at 2. eapply (lookup_intro U r flags r ds); auto.
  - destruct (opt_no_tr46 flags) eqn:N; [apply prep_raw; now rewrite eff_no_tr46|]. destruct (TR eq_refl) as (CK & FX).
    assert (FR : Forall (fixed (opt_transitional flags) (opt_std3 flags)) r).
    { rewrite D3. apply join_Forall; [apply valid_fixed; apply lower_digit_valid; auto|]. eapply Forall_impl; [|exact FX].
      intros d Hd. eapply Forall_impl; [|exact Hd]. cbv beta. tauto. }
    destruct (fixed_map _ _ _ FR) as (M1 & M2).
    apply (prep_tr46 U (eff flags) r r r r); [now rewrite eff_no_tr46|]. constructor; rewrite ?eff_transitional, ?eff_std3, ?M1; auto.
    + now apply utf8_ascii.
    + now apply nfc_ascii.
    + now rewrite SD.
    + now apply utf8_ascii.
    + eapply Forall_impl; [|exact A']. unfold scalar. cbv beta. lia.
    + intros I. rewrite Forall_forall in A. apply A in I. lia.
    + lia.
  - rewrite SD. apply Forall2_self. eapply Forall2_right; [exact CV|]. intros s8 d _ Hd. eapply converted_label; eauto. now rewrite eff_no_roundtrip.
  - rewrite <- D3. exact Z.
Qed.
