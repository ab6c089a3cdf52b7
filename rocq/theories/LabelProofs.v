From Verif Require Import Base Uenv DataTypes Tables SpecTables TablesProofs Gentr46 Tr46Map Tr46Facts Utf8
  Bidi Context Idna SpecBidi SpecContext SpecLabel BidiProofs ContextProofs.

Lemma has_bit : forall x n, 0 <= n -> has x (2 ^ n) = bit x n.
Proof.
  intros x n Hn. unfold has. apply eq_true_iff_eq. rewrite negb_true_iff, Z.eqb_neq. split.
  - intros H. destruct (bit x n) eqn:E; [reflexivity|]. exfalso. apply H. apply Z.bits_inj'. intros k Hk.
    rewrite Z.land_spec, Z.bits_0, Z.pow2_bits_eqb by lia. destruct (n =? k) eqn:K; [|apply andb_false_r].
    apply Z.eqb_eq in K. subst k. now rewrite E.
  - intros E H. assert (B : bit (Z.land x (2 ^ n)) n = bit 0 n) by now rewrite H.
    rewrite Z.land_spec, Z.bits_0, E, Z.pow2_bits_eqb, Z.eqb_refl in B by lia. discriminate.
Qed.
Lemma has_lor : forall x a b, has x (Z.lor a b) = has x a || has x b.
Proof.
  intros x a b. unfold has. apply eq_true_iff_eq. rewrite orb_true_iff, !negb_true_iff, !Z.eqb_neq, Z.land_lor_distr_r.
  rewrite Z.lor_eq_0_iff. destruct (Z.eq_dec (Z.land x a) 0), (Z.eq_dec (Z.land x b) 0); tauto.
Qed.
Lemma has_lor_l : forall a b f, has (Z.lor a b) f = has a f || has b f.
Proof. intros a b f. unfold has. rewrite !(Z.land_comm _ f). apply (has_lor f a b). Qed.

Lemma list_eqb_iff : forall a b, list_eqb a b = true <-> a = b.
Proof.
  induction a as [|x a IH]; intros [|y b]; cbn [list_eqb]; try (split; congruence).
  rewrite andb_true_iff, Z.eqb_eq, IH. split; [intros (-> & ->); reflexivity|intros E; injection E; auto].
Qed.

(** A loop that rejects at the first bad element. *)
Lemma each_spec : forall (f : Z -> out unit) (P : Z -> Prop) rc l,
  (forall c, In c l -> (f c = Ok tt /\ P c) \/ (f c = Fail rc /\ ~ P c)) ->
  (each f l = Ok tt /\ Forall P l) \/ (each f l = Fail rc /\ ~ Forall P l).
Proof.
  intros f P rc l. induction l as [|c l IH]; intros H; cbn [each]; [left; auto|].
  destruct (H c (or_introl eq_refl)) as [(E & HP)|(E & HP)]; rewrite E; cbn [bind].
  - destruct IH as [(E' & F)|(E' & F)]; [intros; apply H; now right|left; auto|right; split; auto].
    intros K. inversion K; auto.
  - right. split; [reflexivity|]. intros K. inversion K; auto.
Qed.
Lemma each_pos_spec : forall (f : Z -> out unit) (P : list Z -> Z -> list Z -> Prop) rc suf pre,
  (forall p c q, pre ++ suf = p ++ c :: q -> (f (zlen p) = Ok tt /\ P p c q) \/ (f (zlen p) = Fail rc /\ ~ P p c q)) ->
  (each_pos f (length suf) (zlen pre) = Ok tt /\ (forall s c q, suf = s ++ c :: q -> P (pre ++ s) c q)) \/
  (each_pos f (length suf) (zlen pre) = Fail rc /\ ~ (forall s c q, suf = s ++ c :: q -> P (pre ++ s) c q)).
Proof.
  intros f P rc suf. induction suf as [|c suf IH]; intros pre H; cbn [length each_pos].
  - left. split; [reflexivity|]. intros [|] c q E; discriminate.
  - destruct (H pre c suf eq_refl) as [(E & HP)|(E & HP)]; rewrite E; cbn [bind].
    + assert (L : zlen pre + 1 = zlen (pre ++ [c])) by (rewrite zlen_app; reflexivity). rewrite L.
      specialize (IH (pre ++ [c])). rewrite <- app_assoc in IH. cbn [app] in IH.
      destruct (IH H) as [(E' & F)|(E' & F)]; rewrite E'; [left|right]; split; auto.
      * intros [|x s] y q K; injection K as -> ->; [now rewrite app_nil_r|].
        specialize (F s y q eq_refl). now rewrite <- app_assoc in F.
      * intros K. apply F. intros s y q ->. rewrite <- app_assoc. now apply (K (c :: s) y q).
    + right. split; [reflexivity|]. intros K. apply HP. rewrite <- (app_nil_r pre) at 1. now apply (K []).
Qed.

Definition verdict (f : out unit) (r : option Z) : Prop :=
  f = match r with None => Ok tt | Some rc => Fail rc end.

Section P.
  Variable U : uenv.
  Variable l : list Z.
  Hypothesis Hl : Forall (fun c => 0 <= c) l.

  Lemma step : forall sel t (P : Prop) rc ts rest,
    ((t = Ok tt /\ P) \/ (t = Fail rc /\ ~ P)) ->
    (exists r, verdict rest r /\ first_failure ts r) ->
    exists r, verdict (let* _ := when sel t in rest) r /\ first_failure ((sel, P, rc) :: ts) r.
  Proof.
    intros sel t P rc ts rest H (r & V & F). destruct sel; cbn [when].
    - destruct H as [(-> & H)|(-> & H)]; cbn [bind].
      + exists r. split; [exact V|]. apply ff_pass; auto.
      + exists (Some rc). split; [reflexivity|]. apply ff_fail; auto.
    - exists r. cbn [bind]. split; [exact V|]. apply ff_pass; [discriminate|auto].
  Qed.

  Lemma prop_no : forall p rc (f : Z -> out unit),
    (forall c, f c = (let* b := (let* q := property c in Ok (prop_eqb q p)) in if b then Fail rc else Ok tt)) ->
    (each f l = Ok tt /\ ok_no l p) \/ (each f l = Fail rc /\ ~ ok_no l p).
  Proof.
    intros p rc f H. unfold ok_no. apply each_spec. intros c _. rewrite H, prop_p. cbn [bind].
    destruct (prop_eqb (csv_property c) p) eqn:E; [right|left]; split; try reflexivity.
    - apply prop_eqb_iff in E. intuition.
    - intros K. apply prop_eqb_iff in K. congruence.
  Qed.

  Lemma is_std3_dec : forall c m k, 0 <= c -> get_idna_map c = Ok (m, k) ->
    exists b, std3_exempt m = Ok b /\ (b = true <-> is_std3 c).
  Proof.
    intros c m k Hc E. destruct (map_facts c Hc) as (m' & k' & E' & F & _). rewrite E in E'. injection E' as <- <-.
    unfold std3_exempt.
    change FLG_DISALLOWED_STD3_VALID with (flag_of Std3Valid). change FLG_DISALLOWED_STD3_MAPPED with (flag_of Std3Mapped).
    rewrite !F. cbn [bind]. unfold is_std3. destruct (status_of c); cbn; eexists; (split; [reflexivity|]); intuition congruence.
  Qed.

  Lemma test_status1_ok : forall what c, 0 <= c ->
    (test_status1 what c = Ok tt /\
      (status_of c = Valid \/ (has what TEST_TRANSITIONAL = false /\ status_of c = Deviation) \/
       (has what TEST_ALLOW_STD3_DISALLOWED = true /\ is_std3 c))) \/
    (test_status1 what c = Fail (if has what TEST_TRANSITIONAL then IDN2_INVALID_TRANSITIONAL else IDN2_INVALID_NONTRANSITIONAL) /\
      ~ (status_of c = Valid \/ (has what TEST_TRANSITIONAL = false /\ status_of c = Deviation) \/
       (has what TEST_ALLOW_STD3_DISALLOWED = true /\ is_std3 c))).
  Proof.
    intros what c Hc. unfold test_status1. destruct (map_facts c Hc) as (m & k & E & F & _).
    destruct (is_std3_dec c m k Hc E) as (b & Eb & Hb). rewrite E. cbn [bind].
    change FLG_VALID with (flag_of Valid). change FLG_DEVIATION with (flag_of Deviation). rewrite !F. cbn [bind].
    destruct (status_of c) eqn:S; cbn [status_eqb].
    1: left; split; auto; reflexivity.
    all: destruct (has what TEST_TRANSITIONAL); cbn [negb bind];
         try (left; split; [reflexivity|]; auto; fail);
         destruct (has what TEST_ALLOW_STD3_DISALLOWED); rewrite ?Eb; cbn [bind];
         try (destruct b; [left|right]; split; try reflexivity; intuition congruence);
         right; split; try reflexivity; intuition congruence.
  Qed.

  Lemma label_test_verdict : forall what, exists r,
    verdict (label_test U what l) r /\ first_failure (label_tests_spec U what l) r.
  Proof.
    intros what. unfold label_test, label_tests_spec.
    rewrite <- (has_bit what 0), <- (has_bit what 1), <- (has_bit what 2), <- (has_bit what 3), <- (has_bit what 4),
      <- (has_bit what 5), <- (has_bit what 6), <- (has_bit what 7), <- (has_bit what 9), <- (has_bit what 10),
      <- (has_bit what 11), <- (has_bit what 12), <- (has_bit what 13), <- (has_bit what 14) by lia.
    change (2 ^ 0) with TEST_NFC. change (2 ^ 1) with TEST_2HYPHEN. change (2 ^ 2) with TEST_HYPHEN_STARTEND.
    change (2 ^ 3) with TEST_LEADING_COMBINING. change (2 ^ 4) with TEST_DISALLOWED. change (2 ^ 5) with TEST_CONTEXTJ.
    change (2 ^ 6) with TEST_CONTEXTJ_RULE. change (2 ^ 7) with TEST_CONTEXTO. change (2 ^ 9) with TEST_CONTEXTO_RULE.
    change (2 ^ 10) with TEST_UNASSIGNED. change (2 ^ 11) with TEST_BIDI. change (2 ^ 12) with TEST_TRANSITIONAL.
    change (2 ^ 13) with TEST_NONTRANSITIONAL. change (2 ^ 14) with TEST_ALLOW_STD3_DISALLOWED.
    rewrite has_lor.
    set (tr := has what TEST_TRANSITIONAL). set (nontr := has what TEST_NONTRANSITIONAL).
    set (std3 := has what TEST_ALLOW_STD3_DISALLOWED).
    match goal with |- exists r, verdict (let* _ := _ in ?R) r /\ first_failure (_ :: _ :: ?T) r =>
      assert (REST : exists r, verdict R r /\ first_failure T r) end.
    { apply step.
      { unfold test_2hyphen, ok_2hyphen. destruct l as [|a [|b [|c [|d r]]]];
          try (left; split; [reflexivity|]; intros (x & y & z & E); discriminate).
        destruct ((c =? 45) && (d =? 45)) eqn:E.
        - right. split; [reflexivity|]. rewrite andb_true_iff, !Z.eqb_eq in E. destruct E as (-> & ->). intros H. apply H. eauto.
        - left. split; [reflexivity|]. intros (x & y & z & K). injection K as -> -> -> -> ->. discriminate. }
      apply step.
      { unfold test_hyphen_startend, ok_hyphen_startend. destruct l as [|c r].
        - left. split; [reflexivity|]. split; [discriminate|intros [|]; discriminate].
        - destruct ((c =? 45) || (last (c :: r) 0 =? 45)) eqn:E.
          + right. split; [reflexivity|]. rewrite orb_true_iff, !Z.eqb_eq in E. intros (H1 & H2). destruct E as [->|E].
            * exact (H1 r eq_refl).
            * destruct (last_split c r) as (a & Ea). rewrite E in Ea. exact (H2 a Ea).
          + left. split; [reflexivity|]. rewrite orb_false_iff, !Z.eqb_neq in E. destruct E as (E1 & E2).
            split; [congruence|]. intros a Ea. apply E2. rewrite Ea. apply last_last. }
      apply step.
      { unfold test_leading_combining, ok_leading. destruct l as [|c r].
        - left. split; [reflexivity|]. intros (x & y & E & _). discriminate.
        - destruct (ue_mark U c) eqn:E.
          + right. split; [reflexivity|]. intros H. apply H. eauto.
          + left. split; [reflexivity|]. intros (x & y & K & M). congruence. }
      apply step.
      { unfold ok_disallowed. apply each_spec. intros c I. rewrite Forall_forall in Hl. specialize (Hl c I). cbn beta in Hl.
        unfold test_disallowed1, disallowed_p. rewrite prop_p. cbn [bind].
        rewrite has_lor. fold tr nontr std3.
        destruct (prop_eqb (csv_property c) DISALLOWED) eqn:E.
        - apply prop_eqb_iff in E. destruct ((tr || nontr) && std3).
          + destruct (map_facts c Hl) as (m & k & Em & _). destruct (is_std3_dec c m k Hl Em) as (b & Eb & Hb).
            rewrite Em. cbn [bind]. rewrite Eb. cbn [bind]. destruct b; [left|right]; split; try reflexivity; intuition congruence.
          + right. split; [reflexivity|]. intuition congruence.
        - left. split; [reflexivity|]. left. intros K. apply prop_eqb_iff in K. congruence. }
      apply step. { apply prop_no. reflexivity. }
      apply step.
      { pose proof (each_pos_spec (contextj_rule U l) (fun p c q => rfc5892_joiner U c p q) IDN2_CONTEXTJ l []) as X.
        cbn [app] in X. unfold ok_contextj_rule. apply X. intros p c q ->. apply contextj_rule_spec. }
      apply step. { apply prop_no. reflexivity. }
      assert (W : each test_contexto_with1 l = Ok tt).
      { destruct (each_spec test_contexto_with1 (fun _ => True) IDN2_CONTEXTO_NO_RULE l) as [(E & _)|(_ & E)]; [|exact E|].
        - intros c _. left. split; [|auto]. unfold test_contexto_with1.
          destruct (contexto_p_spec c) as (b & -> & Hb). cbn [bind].
          destruct b; [|reflexivity]. assert (contexto_with_rule c = true) as -> by (apply with_rule_iff; tauto). reflexivity.
        - exfalso. apply E. apply Forall_forall. auto. }
      rewrite W. replace (when (has what TEST_CONTEXTO_WITH_RULE) (Ok tt)) with (Ok tt) by (destruct (has what TEST_CONTEXTO_WITH_RULE); reflexivity).
      cbn [bind].
      apply step.
      { pose proof (each_pos_spec (contexto_rule U l) (fun p c q => rfc5892_other U c p q) IDN2_CONTEXTO l []) as X.
        cbn [app] in X. unfold ok_contexto_rule. apply X. intros p c q ->. apply contexto_rule_spec. }
      apply step. { apply prop_no. reflexivity. }
      apply step.
      { unfold ok_bidi. pose proof (bidi_iff U l) as B. destruct (bidi_safe U l) as [E|E]; [left|right]; split; auto; [tauto|].
        rewrite <- B. congruence. }
      destruct (tr || nontr); cbn [when].
      2: { exists None. split; [reflexivity|]. apply ff_pass; [discriminate|]. apply ff_pass; [discriminate|]. constructor. }
      destruct (each_spec test_dot1 (fun c => c <> 46) IDN2_DOT_IN_LABEL l) as [(E & D)|(E & D)].
      { intros c _. unfold test_dot1. destruct (c =? 46) eqn:K; [right|left]; split; try reflexivity.
        - apply Z.eqb_eq in K. tauto.
        - now apply Z.eqb_neq. }
      2: { rewrite E. exists (Some IDN2_DOT_IN_LABEL). split; [reflexivity|]. apply ff_fail; auto. }
      rewrite E. cbn [bind].
      destruct (each_spec (test_status1 what)
        (fun c => status_of c = Valid \/ (tr = false /\ status_of c = Deviation) \/ (std3 = true /\ is_std3 c))
        (if tr then IDN2_INVALID_TRANSITIONAL else IDN2_INVALID_NONTRANSITIONAL) l) as [(E' & D')|(E' & D')].
      { intros c I. rewrite Forall_forall in Hl. apply test_status1_ok. exact (Hl c I). }
      - rewrite E'. exists None. split; [reflexivity|]. apply ff_pass; [auto|]. apply ff_pass; [auto|]. constructor.
      - rewrite E'. exists (Some (if tr then IDN2_INVALID_TRANSITIONAL else IDN2_INVALID_NONTRANSITIONAL)).
        split; [reflexivity|]. apply ff_pass; [auto|]. apply ff_fail; auto. }
    destruct (has what TEST_NFC); cbn [when].
    - unfold test_nfc. destruct (ue_nfc U l) as [p|] eqn:N; cbn [conv bind].
      + destruct (list_eqb l p) eqn:E; cbn [bind].
        * apply list_eqb_iff in E. subst p. destruct REST as (r & V & F). exists r. split; [exact V|].
          apply ff_pass; [intros _; unfold ok_normalises; congruence|]. apply ff_pass; [auto|exact F].
        * exists (Some IDN2_NOT_NFC). split; [reflexivity|].
          apply ff_pass; [intros _; unfold ok_normalises; congruence|]. apply ff_fail; [reflexivity|].
          unfold ok_nfc. intros K. assert (p = l) by congruence. subst p.
          assert (list_eqb l l = true) by now apply list_eqb_iff. congruence.
      + exists (Some IDN2_NFC). split; [reflexivity|]. apply ff_fail; [reflexivity|]. unfold ok_normalises. congruence.
    - destruct REST as (r & V & F). exists r. cbn [bind]. split; [exact V|].
      apply ff_pass; [discriminate|]. apply ff_pass; [discriminate|exact F].
  Qed.
End P.

Lemma ff_iff : forall ts, first_failure ts None <-> Forall passes ts.
Proof.
  induction ts as [|[[sel P] rc] ts IH].
  - split; constructor.
  - rewrite Forall_cons_iff. cbn [passes]. rewrite <- IH. split; [intros H; inversion H; auto|intros (A & B); apply ff_pass; auto].
Qed.
Lemma ff_det : forall ts a b, first_failure ts a -> first_failure ts b -> a = b.
Proof.
  intros ts a b H. revert b. induction H; intros b K; inversion K; subst; auto; exfalso; tauto.
Qed.

Lemma label_test_ok_iff : forall U what l, Forall (fun c => 0 <= c) l ->
  (label_test U what l = Ok tt <-> Forall passes (label_tests_spec U what l)).
Proof.
  intros U what l H. destruct (label_test_verdict U l H what) as (r & V & F). rewrite <- ff_iff. unfold verdict in V. rewrite V.
  split.
  - destruct r; [discriminate|auto].
  - intros N. now rewrite (ff_det _ _ _ F N).
Qed.
Lemma label_test_fail_iff : forall U what l rc, Forall (fun c => 0 <= c) l ->
  (label_test U what l = Fail rc <-> first_failure (label_tests_spec U what l) (Some rc)).
Proof.
  intros U what l rc H. destruct (label_test_verdict U l H what) as (r & V & F). unfold verdict in V. rewrite V.
  split.
  - destruct r; [|discriminate]. intros E. injection E as ->. exact F.
  - intros N. now rewrite (ff_det _ _ _ F N).
Qed.
Lemma label_test_safe : forall U what l, Forall (fun c => 0 <= c) l -> safe (label_test U what l).
Proof.
  intros U what l H. destruct (label_test_verdict U l H what) as (r & V & F). rewrite V. destruct r; exact I.
Qed.
