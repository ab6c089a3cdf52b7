(** The remaining lookup properties. *)
From Verif Require Import Base PunyBase Uenv DataTypes DataTr46 SpecUtf8 SpecPuny SpecTables SpecLabel SpecNfc SpecLookup Gentr46 Tr46Map
  Tr46Facts Utf8 Utf8Proofs Idna Puny PunyTop Lookup LabelProofs NfcProofs MapProofs LookupProofs LookupTr46 LookupIdem LookupMisc LookupMap BaseTop StableProofs.

(** ** Labels of the result *)
Lemma enc_rfc : forall p enc, Forall scalar p -> puny_encode p 59 59 = Ok enc -> puny_decode enc 63 63 = Ok p -> rfc_decodes enc p.
Proof.
  intros p enc S E D. pose proof (encode_shape p 59 59 (scalar_u32 _ S) ltac:(unfold two64; lia) ltac:(lia)) as X. rewrite E in X.
  destruct X as (L & _ & ds & DS & Es). apply (decode_rfc enc 63 63 p); auto; [lia|lia|unfold two64; lia|].
  intros a t Et. assert (G : forall x y, Forall lower_or_digit y -> x ++ y = a ++ 95 :: t -> exists t2, x = a ++ 95 :: t2 /\ t = t2 ++ y).
  { intros x y Fy Exy. clear - Fy Exy. revert x Exy. induction a as [|c a IH]; intros x Exy; destruct x as [|u x]; cbn [app] in *.
    - subst y. inversion Fy; subst. unfold lower_or_digit in *. lia.
    - injection Exy as -> <-. exists x. auto.
    - subst y. inversion Fy as [|? ? _ Fy']; subst. assert (In 95 (a ++ 95 :: t)) as I by (apply in_or_app; right; now left).
      rewrite Forall_forall in Fy'. apply Fy' in I. unfold lower_or_digit in I. lia.
    - injection Exy as -> Exy. destruct (IH _ Exy) as (t2 & -> & ->). exists t2. auto. }
  rewrite Es, app_assoc in Et. destruct (G _ _ DS Et) as (t2 & X1 & ->). apply in_or_app. left.
  destruct (zlen (ascii_part p) =? 0) eqn:Z0.
  - rewrite app_nil_r in X1. apply Z.eqb_eq in Z0. rewrite X1, zlen_app, zlen_cons in Z0. pose proof (zlen_nonneg _ a). pose proof (zlen_nonneg _ t2). lia.
  - destruct (exists_last (l := t2)) as (t3 & z & ->).
    + intros ->. apply app_inj_tail in X1. destruct X1. discriminate.
    + rewrite app_comm_cons, app_assoc in X1. apply app_inj_tail in X1. destruct X1 as (_ & <-). apply in_or_app. right. now left.
Qed.
Lemma lower_id : forall c, ~ (65 <= c <= 90) -> lower c = c.
Proof. intros c H. unfold lower. destruct (_ && _) eqn:E; [|reflexivity]. rewrite andb_true_iff, !Z.leb_le in E. lia. Qed.
Lemma lower_not_upper : forall c, ~ (65 <= lower c <= 90).
Proof. intros c. unfold lower. destruct (_ && _) eqn:E; rewrite ?andb_true_iff, ?andb_false_iff, ?Z.leb_le, ?Z.leb_gt in E; lia. Qed.
Lemma map_lower_id : forall l, Forall (fun c => ~ (65 <= c <= 90)) l -> map lower l = l.
Proof. induction 1 as [|c l H F IH]; [reflexivity|]. cbn [map]. rewrite IH, lower_id by auto. reflexivity. Qed.
Lemma tolower_lower : forall c, c_tolower c = lower c.
Proof. reflexivity. Qed.
Lemma label_result_tr46 : forall U flags s s8 d, nfc_ok U -> plain_label s8 -> opt_no_roundtrip flags = false ->
  utf8 s s8 -> checked U flags s -> label U s8 63 flags = Ok d -> label_result s d.
Proof.
  intros U flags s s8 d K P R US CK H. destruct (label_converted_tr46 U flags s s8 d K P R US CK H) as (_ & _ & FX).
  assert (ND : map lower d = d) by (apply map_lower_id; eapply Forall_impl; [|exact FX]; cbv beta; tauto).
  pose proof (utf8_scalar _ _ US) as S.
  pose proof (label_inv _ _ _ _ H) as I. destruct I as [A N L|t s' l p enc A _ E D C TO CC|l p enc A E TO RT].
  - assert (s = s8) as -> by (eapply utf8_ascii_eq; eauto). rewrite <- ND at 2. now apply lr_ascii.
  - assert (s = s8) as -> by (eapply utf8_ascii_eq; eauto). rewrite <- ND. apply casecmp_map in CC.
    change (map lower s8 = map lower (ace_prefix ++ enc)) in CC. rewrite <- CC. now apply lr_ascii.
  - destruct (checked_nfc U flags s s8 S P US CK) as (N1 & _).
    assert (l = s) as ->. { apply u8_to_u32_iff in US; [congruence|]. apply c_string_bytes. apply P. }
    assert (AP : ascii_p s8 = false). { apply not_true_iff_false. intros X. apply ascii_p_iff in X. contradiction. }
    pose proof (norm_fixed _ _ _ _ (t_norm _ _ _ _ _ TO) (N1 AP)) as ->. apply (lr_ace s enc).
    + destruct (Exists_dec (fun c => 128 <= c) s) as [X|X]; [intros x; apply Z_le_dec|exact X|exfalso].
      assert (AS : Forall (fun c => 0 <= c < 128) s).
      { rewrite Forall_forall in *. intros c Hc. specialize (S c Hc). unfold scalar in S. destruct (Z.lt_ge_cases c 128); [lia|]. exfalso. apply X.
        apply Exists_exists. eauto. }
      apply A. rewrite (utf8_fun _ _ _ US (utf8_ascii _ AS)). eapply Forall_impl; [|exact AS]. cbv beta. lia.
    + apply enc_rfc; auto. exact (t_enc _ _ _ _ _ TO).
Qed.

(** ** C39 *)
Lemma lookup_disallowed : forall U src f l, nfc_ok U -> c_string src -> opt_no_tr46 f = false -> ~ bad_flags f -> utf8 l src ->
  Exists (fun c => status_of c = Disallowed) l -> lookup_u8 U src f = Fail IDN2_DISALLOWED.
Proof.
  intros U s f l K C N B US D. unfold lookup_u8. destruct (set_flags_spec f) as [(B' & E)|(_ & E)]; [contradiction|]. rewrite E. cbn [bind].
  rewrite has_no_tr46, eff_no_tr46, N. cbn [negb]. rewrite tr46_eq by auto. unfold tr46_spec.
  apply u8_to_u32_iff in US; [|now apply c_string_bytes]. rewrite US. apply disallowedb_iff in D. rewrite D. reflexivity.
Qed.
Lemma lookup_mapped_big : forall U src f l, nfc_ok U -> c_string src -> opt_no_tr46 f = false -> ~ bad_flags f -> utf8 l src ->
  ~ Exists (fun c => status_of c = Disallowed) l -> 255 <= zlen (uts46_map (opt_transitional f) (opt_std3 f) l) -> lookup_u8 U src f = Fail IDN2_TOO_BIG_DOMAIN.
Proof.
  intros U s f l K C N B US D L. unfold lookup_u8. destruct (set_flags_spec f) as [(B' & E)|(_ & E)]; [contradiction|]. rewrite E. cbn [bind].
  rewrite has_no_tr46, eff_no_tr46, N. cbn [negb]. rewrite tr46_eq by auto. unfold tr46_spec.
  apply u8_to_u32_iff in US; [|now apply c_string_bytes]. rewrite US. destruct (existsb disallowedb l) eqn:X; [apply disallowedb_iff in X; contradiction|].
  rewrite eff_transitional, eff_std3. cbv zeta. destruct (255 <=? _) eqn:Y; [reflexivity|]. apply Z.leb_gt in Y. lia.
Qed.
Lemma Forall2_compose : forall (A B C : Type) (P : A -> B -> Prop) (Q : B -> C -> Prop) (R : A -> C -> Prop) la lb lc,
  Forall2 P la lb -> Forall2 Q lb lc -> (forall a b c, In a la -> In b lb -> P a b -> Q b c -> R a c) -> Forall2 R la lc.
Proof.
  intros A B C P Q R la lb lc F. revert lc. induction F as [|a b la lb H F IH]; intros lc G X; inversion G as [|? c ? lc' Hq G']; subst; constructor.
  - apply (X a b c); auto; now left.
  - apply IH; auto. intros a' b' c' Ia Ib. apply X; now right.
Qed.
Lemma lookup_result : forall U src f r, nfc_ok U -> c_string src -> zlen src < two64 -> opt_no_tr46 f = false -> opt_no_roundtrip f = false ->
  lookup_u8 U src f = Ok r -> exists l n ls ds, utf8 l src /\ ~ Exists (fun c => status_of c = Disallowed) l /\
    ue_nfc U (uts46_map (opt_transitional f) (opt_std3 f) l) = Some n /\ dotted ls n /\ dotted ds r /\ Forall2 label_result ls ds.
Proof.
  intros U src f r K C L N R H. apply lookup_converted in H; auto. destruct H as (B & o & ds & P & F & D & _ & _ & _).
  destruct P as [X|o l n X T]; [rewrite eff_no_tr46 in X; congruence|]. exists l, n, (split_dots n), ds.
  split; [apply (k_src _ _ _ _ _ _ T)|]. split.
  { intros Y. apply disallowedb_iff in Y. rewrite (k_allowed _ _ _ _ _ _ T) in Y. discriminate. }
  split. { rewrite <- eff_transitional, <- eff_std3. apply (k_nfc _ _ _ _ _ _ T). }
  split; [now apply dotted_iff|]. split; [exact D|].
  destruct (tr46_out _ _ _ _ _ _ T) as (CO & LO). pose proof (plain_split o CO ltac:(unfold two64; lia)) as PS. rewrite Forall_forall in PS.
  pose proof (k_checked _ _ _ _ _ _ T) as CK. rewrite Forall_forall in CK.
  eapply Forall2_compose; [exact (utf8_split _ _ (k_out _ _ _ _ _ _ T))|exact F|]. cbv beta. intros s s8 d Is I8 HU HL.
  apply (label_result_tr46 U (eff f) s s8 d); auto. now rewrite eff_no_roundtrip.
Qed.
Lemma lookup_premapped : forall U s l s' f, nfc_ok U -> c_string s -> c_string s' -> opt_no_tr46 f = false -> utf8 l s ->
  ~ Exists (fun c => status_of c = Disallowed) l -> utf8 (uts46_map (opt_transitional f) (opt_std3 f) l) s' ->
  lookup_u8 U s' f = lookup_u8 U s f.
Proof.
  intros U s l s' f K C C' N U1 D U2. assert (E : existsb disallowedb l = false).
  { apply not_true_iff_false. intros X. apply disallowedb_iff in X. contradiction. }
  apply (lookup_mapped U s' s (uts46_map (opt_transitional f) (opt_std3 f) l) l); auto.
  - rewrite uts46_map_disallowed; auto.
  - intros _. apply uts46_map_stable.
Qed.

(** ** C13 *)
Lemma map1_ascii : forall tr c, 0 <= c < 128 -> map1 tr false c = [lower c] /\ status_of c <> Disallowed.
Proof.
  intros tr c H. unfold map1, lower. rewrite status_ascii by auto. unfold ascii_status. destruct ((65 <=? c) && (c <=? 90)) eqn:E.
  - rewrite andb_true_iff, !Z.leb_le in E. rewrite mapping_upper by auto. split; [reflexivity|discriminate].
  - destruct (_ || _); split; try reflexivity; discriminate.
Qed.
Lemma uts46_map_ascii : forall tr s, Forall (fun c => 0 <= c < 128) s -> uts46_map tr false s = map lower s.
Proof.
  intros tr s. induction 1 as [|c s H F IH]; [reflexivity|]. unfold uts46_map in *. cbn [flat_map map]. destruct (map1_ascii tr c H) as (-> & _). rewrite IH. reflexivity.
Qed.
Lemma lower_range : forall c, 0 < c < 128 -> 0 < lower c < 128.
Proof. intros c H. unfold lower. destruct (_ && _) eqn:E; [|lia]. rewrite andb_true_iff, !Z.leb_le in E. lia. Qed.
Lemma join_lower : forall ls, Forall (fun l => Forall (fun c => ~ (65 <= c <= 90)) l) ls -> map (map lower) ls = ls.
Proof. induction 1 as [|l ls H F IH]; [reflexivity|]. cbn [map]. now rewrite IH, map_lower_id. Qed.
Lemma ascii_lowered : forall U s f r, nfc_ok U -> ascii_string s -> zlen s < two64 -> opt_no_tr46 f = false -> opt_std3 f = false ->
  lookup_u8 U s f = Ok r -> r = map lower s.
Proof.
  intros U s f r K A L N S H.
  assert (C : c_string s) by (eapply Forall_impl; [|exact A]; cbv beta; lia).
  assert (A1 : Forall (fun c => 0 <= c < 128) s) by (eapply Forall_impl; [|exact A]; cbv beta; lia).
  assert (A2 : Forall (fun c => 0 <= c < 128) (map lower s)).
  { apply Forall_map. eapply Forall_impl; [|exact A]. cbv beta. intros c Hc. apply lower_range in Hc. lia. }
  assert (A3 : Forall (fun c => ~ (65 <= c <= 90)) (map lower s)).
  { apply Forall_map. eapply Forall_impl; [|exact A]. cbv beta. intros c _. apply lower_not_upper. }
  pose proof (lookup_inv U s f r K C L H) as (B & o & ds & P & F & -> & _). destruct P as [X|o l n X T]; [rewrite eff_no_tr46 in X; congruence|].
  assert (l = s) as -> by (eapply utf8_ascii_eq; [exact (k_src _ _ _ _ _ _ T)|]; eapply Forall_impl; [|exact A]; cbv beta; lia).
  pose proof (k_nfc _ _ _ _ _ _ T) as NF. rewrite eff_std3, S, uts46_map_ascii, nfc_ascii in NF by auto. injection NF as <-.
  assert (o = map lower s) as -> by (apply (utf8_fun (map lower s)); [exact (k_out _ _ _ _ _ _ T)|now apply utf8_ascii]).
  assert (ds = split_dots (map lower s)) as ->; [|now rewrite join_split].
  assert (A4 : Forall (Forall (fun c => c < 128)) (split_dots (map lower s))).
  { apply split_Forall. eapply Forall_impl; [|exact A2]. cbv beta. lia. }
  destruct (opt_no_roundtrip f) eqn:R.
  - clear - F R A4. induction F as [|x d ls ds Hd F IH]; [reflexivity|]. inversion A4; subst. rewrite IH by auto. f_equal.
    apply label_inv in Hd. destruct Hd as [? ? ?|t s' l p enc ? X|l p enc X]; [reflexivity|rewrite eff_no_roundtrip in X; congruence|contradiction].
  - pose proof (lookup_result U s f _ K C L N R H) as (l & n & ls & ds' & U1 & _ & NF & D1 & D2 & FR).
    assert (l = s) as -> by (eapply utf8_ascii_eq; [exact U1|]; eapply Forall_impl; [|exact A]; cbv beta; lia).
    rewrite S, uts46_map_ascii, nfc_ascii in NF by auto. injection NF as <-. apply dotted_iff in D1, D2. subst ls.
    assert (ds' = ds) as ->.
    { destruct (tr46_out _ _ _ _ _ _ T) as (CO & LO). 
      pose proof (ds_dotted U (eff f) (map lower s) ds K CO ltac:(unfold two64; lia) F) as DD. apply dotted_iff in DD. congruence. }
    pose proof (split_Forall _ _ A3) as A5. clear - FR A4 A5.
    induction FR as [|x d ls ds Hd F IH]; [reflexivity|]. inversion A4; subst. inversion A5; subst. rewrite IH by auto. f_equal.
    destruct Hd as [_|e X _]; [now apply map_lower_id|]. exfalso. apply Exists_exists in X. destruct X as (c & I & G). rewrite Forall_forall in *. 
    match goal with K : forall x0, In x0 x -> x0 < 128 |- _ => specialize (K c I) end. lia.
Qed.

(** ** C12 *)
Lemma labels_plain : forall U flags ls acc, Forall (Forall (fun b => b < 128)) ls -> (opt_no_roundtrip flags = false -> Forall (fun l => ~ xn l) ls) ->
  match lookup_labels U flags ls acc with
  | Ok _ => Forall (fun l => zlen l <= 63) ls
  | Fail rc => rc = IDN2_TOO_BIG_DOMAIN \/ (rc = IDN2_TOO_BIG_LABEL /\ Exists (fun l => 63 < zlen l) ls)
  | Undef => True
  | NoFuel => False
  end.
Proof.
  intros U flags ls acc A N. revert acc. induction ls as [|l ls IH]; intros acc; cbn [lookup_labels]; [constructor|].
  inversion A; subst. change LABEL_MAX with 63. destruct (Z.le_gt_cases (zlen l) 63) as [Z|Z].
  - rewrite label_plain; auto; [|intros R; specialize (N R); now inversion N]. cbn [bind].
    destruct (_ <? _); [now left|]. destruct (_ <? _); [exact I|]. cbv zeta. destruct ls as [|l2 ls]; [destruct (_ <? _); [exact I|constructor; auto]|].
    assert (IH' : forall acc0, match lookup_labels U flags (l2 :: ls) acc0 with
      | Ok _ => Forall (fun l => zlen l <= 63) (l :: l2 :: ls)
      | Fail rc => rc = IDN2_TOO_BIG_DOMAIN \/ (rc = IDN2_TOO_BIG_LABEL /\ Exists (fun l => 63 < zlen l) (l :: l2 :: ls))
      | Undef => True
      | NoFuel => False end).
    { intros acc0. assert (IH0 := IH ltac:(assumption) ltac:(intros R; specialize (N R); now inversion N) acc0).
      destruct (lookup_labels U flags (l2 :: ls) acc0); auto. destruct IH0 as [->|(-> & X)]; [now left|right; split; [reflexivity|now apply Exists_cons_tl]]. }
    repeat match goal with |- context [if ?b then _ else _] => destruct b; [first [now left|exact I|apply IH']|] end; apply IH'.
  - assert (label U l 63 flags = Fail IDN2_TOO_BIG_LABEL) as ->.
    { unfold label. assert (ascii_p l = true) as -> by now apply ascii_p_iff. rewrite has_no_roundtrip.
      destruct (negb (opt_no_roundtrip flags) && has_ace_prefix l) eqn:E.
      - rewrite andb_true_iff, negb_true_iff, has_ace_iff in E. destruct E as (E1 & E2). specialize (N E1). inversion N. contradiction.
      - change LABEL_MAX with 63. destruct (63 <? zlen l) eqn:Y; [reflexivity|apply Z.ltb_ge in Y; lia]. }
    cbn [bind]. right. split; [reflexivity|]. now apply Exists_cons_hd.
Qed.
Lemma split_last : forall t, last (split_dots (t ++ [46])) [] = [].
Proof.
  induction t as [|c t IH]; [reflexivity|]. cbn [app split_dots]. pose proof (split_nonempty (t ++ [46])) as N. destruct (c =? 46).
  - destruct (split_dots (t ++ [46])); [congruence|exact IH].
  - destruct (split_dots (t ++ [46])) as [|x [|y r]] eqn:E; [congruence| |exact IH]. exfalso. cbn [last] in IH. subst x.
    pose proof (join_split (t ++ [46])) as J. rewrite E in J. cbn [join] in J. destruct t; discriminate.
Qed.
Lemma ascii_passthrough : forall U s f, nfc_ok U -> ascii_string s -> zlen s < two64 -> opt_no_tr46 f = true -> ~ bad_flags f ->
  (opt_no_roundtrip f = false -> forall ls l, dotted ls s -> In l ls -> ~ xn l) ->
  (fits s -> lookup_u8 U s f = Ok s) /\
  (~ fits s -> lookup_u8 U s f = Fail IDN2_TOO_BIG_DOMAIN \/
     (lookup_u8 U s f = Fail IDN2_TOO_BIG_LABEL /\ exists ls, dotted ls s /\ Exists (fun l => 63 < zlen l) ls)).
Proof.
  intros U s f K A L N B X. assert (C : c_string s) by (eapply Forall_impl; [|exact A]; cbv beta; lia).
  assert (SF : Forall (Forall (fun b => b < 128)) (split_dots s)). { apply split_Forall. eapply Forall_impl; [|exact A]. cbv beta. lia. }
  assert (DS : dotted (split_dots s) s) by now apply dotted_iff.
  assert (NX : opt_no_roundtrip (eff f) = false -> Forall (fun l => ~ xn l) (split_dots s)).
  { rewrite eff_no_roundtrip. intros R. apply Forall_forall. intros l Hl. now apply (X R (split_dots s)). }
  assert (LE : lookup_u8 U s f = lookup_labels U (eff f) (split_dots s) []).
  { unfold lookup_u8. destruct (set_flags_spec f) as [(B' & E)|(_ & E)]; [contradiction|]. rewrite E. cbn [bind]. rewrite has_no_tr46, eff_no_tr46, N. reflexivity. }
  assert (OKI : forall r, lookup_u8 U s f = Ok r -> fits s).
  { intros r H. pose proof (labels_plain U (eff f) (split_dots s) [] SF NX) as LP. rewrite <- LE, H in LP.
    pose proof (lookup_inv U s f r K C L H) as (_ & o & ds & P & F & -> & Z). destruct P as [_|o l n Y T]; [|rewrite eff_no_tr46 in Y; congruence].
    assert (ds = split_dots s) as ->.
    { clear - F SF NX. induction F as [|x d ls ds Hd F IH]; [reflexivity|]. inversion SF; subst. rewrite IH; auto; [|intros R; specialize (NX R); now inversion NX].
      f_equal. apply label_inv in Hd. destruct Hd as [? ? ?|t s' l p enc ? R E0|l p enc Y]; [reflexivity| |contradiction].
      exfalso. specialize (NX R). inversion NX; subst. match goal with K : ~ xn _ |- _ => apply K end. now exists t. }
    rewrite join_split in Z. split.
    - intros ls D. apply dotted_iff in D. subst ls. exact LP.
    - destruct Z as [Z|(Z1 & Z2)]; [now left|right]. split; [exact Z1|]. rewrite <- (join_split s). apply last_join; [apply DS|exact Z2|rewrite join_split; lia]. }
  split.
  - intros (F1 & F2). rewrite LE. rewrite <- (join_split s) at 2. apply (lookup_labels_intro U (eff f) (split_dots s) (split_dots s) []).
    + apply Forall2_self. pose proof (F1 _ DS) as FL. rewrite Forall_forall in FL, SF. apply Forall_forall. intros l Hl. apply label_plain; auto.
      intros R. specialize (NX R). rewrite Forall_forall in NX. now apply NX.
    + apply split_nonempty.
    + cbn [app]. rewrite join_split. destruct F2 as [F2|(F2 & t & Et)]; [now left|right]. split; [exact F2|]. rewrite Et. apply split_last.
  - intros NF. pose proof (labels_plain U (eff f) (split_dots s) [] SF NX) as LP. rewrite <- LE in LP.
    pose proof (lookup_safe U s f K C L) as LS. destruct (lookup_u8 U s f) as [r| | |]; try contradiction; [exfalso; apply NF; now apply (OKI r)|].
    destruct LP as [->|(-> & E)]; [now left|right]. split; [reflexivity|]. exists (split_dots s). auto.
Qed.
