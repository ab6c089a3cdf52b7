From Coq Require Import String.
From Verif Require Import Base Uenv DataTypes DataCsv Tables SpecTables TablesProofs Context SpecContext.
Local Open Scope list_scope.

Lemma prop_eqb_iff : forall a b, prop_eqb a b = true <-> a = b.
Proof. intros [] []; unfold prop_eqb; cbn; split; congruence. Qed.
Lemma prop_p : forall c p, (let* q := property c in Ok (prop_eqb q p)) = Ok (prop_eqb (csv_property c) p).
Proof. intros c p. rewrite property_spec. reflexivity. Qed.

Lemma csv_ctx : forall c, csv_property c = CONTEXTJ <-> c = 0x200C \/ c = 0x200D.
Proof.
  intros c. split.
  - intros H. unfold csv_property in H. destruct (find _ csv_rows) as [r|] eqn:F; [|discriminate].
    apply find_some in F. destruct F as (I & C). unfold in_range in C. rewrite andb_true_iff, !Z.leb_le in C.
    assert (A : forallb (fun r => negb (prop_eqb (p_prop r) CONTEXTJ) || ((0x200C <=? p_lo r) && (p_hi r <=? 0x200D))) csv_rows = true)
      by (vm_compute; reflexivity).
    rewrite forallb_forall in A. apply A in I. rewrite orb_true_iff, negb_true_iff in I.
    destruct I as [I|I]; [rewrite H in I; discriminate|]. rewrite andb_true_iff, !Z.leb_le in I. lia.
  - intros H. assert (A : prop_eqb (csv_property 0x200C) CONTEXTJ && prop_eqb (csv_property 0x200D) CONTEXTJ = true)
      by (vm_compute; reflexivity).
    rewrite andb_true_iff, !prop_eqb_iff in A. destruct H as [->| ->]; tauto.
Qed.

Definition is_contexto (c : Z) : Prop :=
  c = 0xB7 \/ c = 0x375 \/ c = 0x5F3 \/ c = 0x5F4 \/ c = 0x30FB \/ arabic_indic c \/ ext_arabic_indic c.
Lemma csv_cto : forall c, csv_property c = CONTEXTO <-> is_contexto c.
Proof.
  intros c. unfold is_contexto, arabic_indic, ext_arabic_indic. split.
  - intros H. unfold csv_property in H. destruct (find _ csv_rows) as [r|] eqn:F; [|discriminate].
    apply find_some in F. destruct F as (I & C). unfold in_range in C. rewrite andb_true_iff, !Z.leb_le in C.
    assert (A : forallb (fun r => negb (prop_eqb (p_prop r) CONTEXTO) ||
       existsb (fun p => (fst p <=? p_lo r) && (p_hi r <=? snd p))
         [(0xB7,0xB7); (0x375,0x375); (0x5F3,0x5F4); (0x30FB,0x30FB); (0x660,0x669); (0x6F0,0x6F9)]) csv_rows = true)
      by (vm_compute; reflexivity).
    rewrite forallb_forall in A. apply A in I. rewrite orb_true_iff, negb_true_iff in I.
    destruct I as [I|I]; [rewrite H in I; discriminate|].
    cbn [existsb fst snd] in I. rewrite !orb_true_iff, !andb_true_iff, !Z.leb_le in I. lia.
  - intros H.
    assert (A : forall lo hi, existsb (fun r => prop_eqb (p_prop r) CONTEXTO && (p_lo r =? lo) && (p_hi r =? hi)) csv_rows = true ->
       lo <= c <= hi -> csv_property c = CONTEXTO).
    { intros lo hi E B. apply existsb_exists in E. destruct E as (r & I & E).
      rewrite !andb_true_iff, !Z.eqb_eq, prop_eqb_iff in E. destruct E as ((E & <-) & <-).
      rewrite (csv_row_property r c I B). exact E. }
    destruct H as [H|[H|[H|[H|[H|[H|H]]]]]].
    + apply (A 0xB7 0xB7); [vm_compute; reflexivity|lia].
    + apply (A 0x375 0x375); [vm_compute; reflexivity|lia].
    + apply (A 0x5F3 0x5F4); [vm_compute; reflexivity|lia].
    + apply (A 0x5F3 0x5F4); [vm_compute; reflexivity|lia].
    + apply (A 0x30FB 0x30FB); [vm_compute; reflexivity|lia].
    + apply (A 0x660 0x669); [vm_compute; reflexivity|lia].
    + apply (A 0x6F0 0x6F9); [vm_compute; reflexivity|lia].
Qed.

Lemma contextj_p_spec : forall c, contextj_p c = Ok ((c =? 0x200C) || (c =? 0x200D)).
Proof.
  intros c. unfold contextj_p. rewrite prop_p. f_equal. apply eq_true_iff_eq.
  rewrite prop_eqb_iff, csv_ctx, orb_true_iff, !Z.eqb_eq. tauto.
Qed.
Lemma contexto_p_spec : forall c, exists b, contexto_p c = Ok b /\ (b = true <-> is_contexto c).
Proof. intros c. exists (prop_eqb (csv_property c) CONTEXTO). unfold contexto_p. split; [apply prop_p|]. now rewrite prop_eqb_iff, csv_cto. Qed.

Lemma with_rule_iff : forall c, contexto_with_rule c = true <-> is_contexto c.
Proof.
  intros c. unfold contexto_with_rule, is_contexto, is_arabic_indic, is_ext_arabic_indic, arabic_indic, ext_arabic_indic.
  rewrite !orb_true_iff, !andb_true_iff, !Z.eqb_eq, !Z.leb_le. lia.
Qed.

Global Opaque property csv_property csv_rows idna_table.

Lemma rd_app : forall pre c post, rd (pre ++ c :: post) (zlen pre) = Ok c.
Proof.
  intros pre c post. unfold rd, zlen. destruct (_ <? 0) eqn:E; [apply Z.ltb_lt in E; lia|].
  rewrite Nat2Z.id, nth_error_app2, Nat.sub_diag by lia. reflexivity.
Qed.
Lemma rd_last : forall p b post, rd ((p ++ [b]) ++ post) (zlen (p ++ [b]) - 1) = Ok b.
Proof.
  intros. replace (zlen (p ++ [b]) - 1) with (zlen p) by (unfold zlen; rewrite app_length; cbn; lia).
  rewrite <- app_assoc. apply rd_app.
Qed.
Lemma zlen_app : forall {A} (a b : list A), zlen (a ++ b) = zlen a + zlen b.
Proof. intros. unfold zlen. rewrite app_length. lia. Qed.
Lemma zlen_cons : forall {A} (a : A) b, zlen (a :: b) = 1 + zlen b.
Proof. intros. unfold zlen. cbn [length]. lia. Qed.
Lemma zlen_nonneg : forall {A} (l : list A), 0 <= zlen l.
Proof. intros. unfold zlen. lia. Qed.

Lemma joining_eqb_iff : forall a b, joining_eqb a b = true <-> a = b.
Proof. intros a b. unfold joining_eqb. destruct (_ : {a = b} + {a <> b}); split; congruence. Qed.

Lemma snoc_case : forall {A} (l : list A), l = [] \/ exists p x, l = p ++ [x].
Proof. intros A l. destruct l using rev_ind; eauto. Qed.

Section P.
  Variable U : uenv.

  Lemma virama_before_spec : forall pre c post, exists b,
    virama_before U (pre ++ c :: post) (zlen pre) = Ok b /\ (b = true <-> virama_prev U pre).
  Proof.
    intros pre c post. unfold virama_before, virama_prev. destruct (snoc_case pre) as [->|(p & v & ->)].
    - exists false. split; [reflexivity|]. split; [discriminate|]. intros (p & v & E & _). destruct p; discriminate.
    - replace (0 <? zlen (p ++ [v])) with true
        by (symmetry; apply Z.ltb_lt; rewrite zlen_app, zlen_cons; pose proof (zlen_nonneg p); unfold zlen at 2; cbn; lia).
      rewrite rd_last. eexists. split; [reflexivity|]. rewrite Z.eqb_eq. unfold UC_CCC_VR. split; [eauto|].
      intros (p' & v' & E & H). apply app_inj_tail in E. destruct E as (_ & <-). exact H.
  Qed.

  Definition jback (pre : list Z) : Prop :=
    exists p a ts, pre = p ++ a :: ts /\ jt U [UC_JOINING_TYPE_L; UC_JOINING_TYPE_D] a /\ Forall (jt U [UC_JOINING_TYPE_T]) ts.
  Definition jfwd (post : list Z) : Prop :=
    exists ts b q, post = ts ++ b :: q /\ Forall (jt U [UC_JOINING_TYPE_T]) ts /\ jt U [UC_JOINING_TYPE_R; UC_JOINING_TYPE_D] b.

  Lemma jback_snoc : forall p x, jback (p ++ [x]) <->
    jt U [UC_JOINING_TYPE_L; UC_JOINING_TYPE_D] x \/ (jt U [UC_JOINING_TYPE_T] x /\ jback p).
  Proof.
    intros p x. unfold jback. split.
    - intros (q & a & ts & E & H & F). destruct (snoc_case ts) as [->|(ts' & y & ->)].
      + apply app_inj_tail in E. destruct E as (_ & ->). auto.
      + rewrite app_comm_cons, app_assoc in E. apply app_inj_tail in E. destruct E as (-> & ->).
        apply Forall_app in F. destruct F as (F1 & F2). inversion F2; subst. right. split; [auto|].
        exists q, a, ts'. auto.
    - intros [H|(T & q & a & ts & -> & H & F)].
      + exists p, x, []. auto.
      + exists q, a, (ts ++ [x]). split; [now rewrite <- app_assoc|]. split; [auto|]. apply Forall_app. auto.
  Qed.
  Lemma jback_nil : ~ jback [].
  Proof. intros (p & a & ts & E & _). destruct p; discriminate. Qed.

  Lemma zwnj_back_spec : forall pre x post,
    (zwnj_back U ((pre ++ [x]) ++ post) (length pre) = Ok tt /\ jback (pre ++ [x])) \/
    (zwnj_back U ((pre ++ [x]) ++ post) (length pre) = Fail IDN2_CONTEXTJ /\ ~ jback (pre ++ [x])).
  Proof.
    intros pre. induction pre as [|y pre IH] using rev_ind; intros x post.
    - cbn [app length zwnj_back]. unfold rd. cbn [Z.of_nat Z.ltb Z.compare Z.to_nat nth_error bind].
      rewrite (jback_snoc [] x). unfold jt. cbn [In].
      destruct (ue_join U x) eqn:J; cbn [joining_eqb orb];
       try (right; split; [reflexivity|]; intros [H|(_ & H)]; [intuition discriminate|exact (jback_nil H)]);
       left; split; auto.
    - rewrite app_length. cbn [length]. rewrite Nat.add_1_r. cbn [zwnj_back].
      replace (Z.of_nat (S (length pre))) with (zlen (pre ++ [y])) by (unfold zlen; rewrite app_length; cbn; lia).
      rewrite <- (app_assoc (pre ++ [y]) [x] post) at 1 2. cbn [app]. rewrite rd_app. cbn [bind].
      rewrite (jback_snoc (pre ++ [y]) x). unfold jt. cbn [In].
      specialize (IH y (x :: post)). replace ((pre ++ [y]) ++ x :: post) with (((pre ++ [y]) ++ [x]) ++ post) in IH
        by (rewrite <- (app_assoc (pre ++ [y])); reflexivity).
      destruct (ue_join U x) eqn:J; cbn [joining_eqb orb];
        try (right; split; [reflexivity|]; intros [H|(H & _)]; intuition discriminate);
        try (left; split; [reflexivity|]; auto; fail).
      destruct IH as [(E & B)|(E & B)]; rewrite <- app_assoc in E; cbn [app] in E; [left|right]; split; auto.
      + rewrite <- app_assoc. exact E.
      + rewrite <- app_assoc. exact E.
      + intros [H|(_ & H)]; [intuition discriminate|]. auto.
  Qed.

  Lemma jfwd_cons : forall x q, jfwd (x :: q) <->
    jt U [UC_JOINING_TYPE_R; UC_JOINING_TYPE_D] x \/ (jt U [UC_JOINING_TYPE_T] x /\ jfwd q).
  Proof.
    intros x q. unfold jfwd. split.
    - intros ([|t ts] & b & q' & E & F & H); cbn [app] in E; injection E as -> ->; [auto|].
      inversion F; subst. right. split; [auto|]. exists ts, b, q'. auto.
    - intros [H|(T & ts & b & q' & -> & F & H)].
      + exists [], x, q. auto.
      + exists (x :: ts), b, q'. repeat split; auto.
  Qed.
  Lemma jfwd_nil : ~ jfwd [].
  Proof. intros (p & a & ts & E & _). destruct p; discriminate. Qed.

  Lemma zwnj_fwd_spec : forall post, post <> [] ->
    (zwnj_fwd U post = Ok tt /\ jfwd post) \/ (zwnj_fwd U post = Fail IDN2_CONTEXTJ /\ ~ jfwd post).
  Proof.
    induction post as [|x q IH]; [congruence|]. intros _. cbn [zwnj_fwd]. rewrite jfwd_cons. unfold jt. cbn [In].
    destruct (ue_join U x) eqn:J; cbn [joining_eqb orb];
      try (left; split; [reflexivity|]; auto; fail);
      try (right; split; [destruct q; reflexivity|]; intros [H|(H & _)]; intuition discriminate).
    destruct q as [|y q].
    - right. split; [reflexivity|]. intros [H|(_ & H)]; [intuition discriminate|exact (jfwd_nil H)].
    - destruct (IH ltac:(discriminate)) as [(E & H)|(E & H)]; rewrite E; [left|right]; split; auto.
      intros [K|(_ & K)]; [intuition discriminate|auto].
  Qed.

  Lemma contextj_rule_spec : forall pre c post,
    (contextj_rule U (pre ++ c :: post) (zlen pre) = Ok tt /\ rfc5892_joiner U c pre post) \/
    (contextj_rule U (pre ++ c :: post) (zlen pre) = Fail IDN2_CONTEXTJ /\ ~ rfc5892_joiner U c pre post).
  Proof.
    intros pre c post. unfold contextj_rule, rfc5892_joiner.
    assert (N : zlen (pre ++ c :: post) =? 0 = false)
      by (apply Z.eqb_neq; rewrite zlen_app, zlen_cons; pose proof (zlen_nonneg pre); pose proof (zlen_nonneg post); lia).
    rewrite N, rd_app. cbn [bind]. rewrite contextj_p_spec. cbn [bind].
    destruct (virama_before_spec pre c post) as (b & Eb & Hb). rewrite Eb. cbn [bind].
    destruct (c =? 0x200C) eqn:E1; cbn [orb negb].
    - apply Z.eqb_eq in E1. destruct b.
      + left. split; [reflexivity|]. split; [intros _; left; tauto|intros; lia].
      + assert (NV : ~ virama_prev U pre) by (intros H; apply Hb in H; discriminate).
        assert (A1' : A1 U pre post <-> (jback pre /\ jfwd post)).
        { unfold A1, jback, jfwd. tauto. }
        destruct ((zlen pre =? 0) || (zlen pre =? zlen (pre ++ c :: post) - 1)) eqn:E2.
        * right. split; [reflexivity|]. intros (H & _). specialize (H E1). apply A1' in H. destruct H as (H1 & H2).
          rewrite orb_true_iff, !Z.eqb_eq, zlen_app, zlen_cons in E2. destruct E2 as [E2|E2].
          -- destruct pre; [exact (jback_nil H1)|]. rewrite zlen_cons in E2. pose proof (zlen_nonneg pre). lia.
          -- destruct post; [exact (jfwd_nil H2)|]. rewrite zlen_cons in E2. pose proof (zlen_nonneg post). lia.
        * rewrite orb_false_iff, !Z.eqb_neq, zlen_app, zlen_cons in E2. destruct E2 as (E2 & E3).
          destruct (snoc_case pre) as [->|(p & x & ->)]; [exfalso; apply E2; reflexivity|].
          assert (Z.to_nat (zlen (p ++ [x]) - 1) = length p) as -> by (unfold zlen; rewrite app_length; cbn; lia).
          assert (skipn (Z.to_nat (zlen (p ++ [x]) + 1)) ((p ++ [x]) ++ c :: post) = post) as ->.
          { replace ((p ++ [x]) ++ c :: post) with (((p ++ [x]) ++ [c]) ++ post) by (now rewrite <- (app_assoc (p ++ [x]))).
            replace (Z.to_nat (zlen (p ++ [x]) + 1)) with (length ((p ++ [x]) ++ [c]))
              by (unfold zlen; rewrite !app_length; cbn; lia).
            rewrite skipn_app, skipn_all, Nat.sub_diag. reflexivity. }
          assert (NP : post <> []) by (intros ->; apply E3; unfold zlen; cbn; lia).
          destruct (zwnj_back_spec p x (c :: post)) as [(B1 & B2)|(B1 & B2)]; rewrite B1; cbn [bind].
          -- destruct (zwnj_fwd_spec post NP) as [(F1 & F2)|(F1 & F2)]; rewrite F1; [left|right]; split; auto.
             ++ split; [intros _; tauto|intros; lia].
             ++ intros (H & _). specialize (H E1). tauto.
          -- right. split; [reflexivity|]. intros (H & _). specialize (H E1). tauto.
    - apply Z.eqb_neq in E1. destruct (c =? 0x200D) eqn:E2; cbn [negb].
      + apply Z.eqb_eq in E2. destruct b; [left|right]; split; auto.
        * split; [intros; lia|]. intros _. unfold A2. tauto.
        * intros (_ & H). specialize (H E2). unfold A2 in H. apply Hb in H. discriminate.
      + apply Z.eqb_neq in E2. left. split; [reflexivity|]. split; intros; lia.
  Qed.

  Lemma script_name_iff : forall c n, n <> ""%string -> (String.eqb (script_name U c) n = true <-> script U n c).
  Proof.
    intros c n N. rewrite String.eqb_eq. unfold script_name, script. destruct (ue_script U c); split; congruence.
  Qed.
  Lemma script_name_false : forall c n, n <> ""%string -> (String.eqb (script_name U c) n = false <-> ~ script U n c).
  Proof. intros c n N. rewrite <- (script_name_iff c n N). destruct (String.eqb _ _); split; congruence. Qed.

  Lemma existsb_Exists : forall {A} (f : A -> bool) (P : A -> Prop) l,
    (forall x, f x = true <-> P x) -> (existsb f l = true <-> Exists P l).
  Proof.
    intros A f P l H. rewrite existsb_exists, Exists_exists. split; intros (x & I & E); exists x; split; auto; now apply H.
  Qed.
  Lemma Exists_neg : forall {A} (P : A -> Prop) l, ~ Exists P l <-> Forall (fun x => ~ P x) l.
  Proof. intros A P l. rewrite Exists_exists, Forall_forall. firstorder. Qed.

  Lemma contexto_rule_spec : forall pre c post,
    (contexto_rule U (pre ++ c :: post) (zlen pre) = Ok tt /\ rfc5892_other U c pre post) \/
    (contexto_rule U (pre ++ c :: post) (zlen pre) = Fail IDN2_CONTEXTO /\ ~ rfc5892_other U c pre post).
  Proof.
    intros pre c post. unfold contexto_rule. rewrite rd_app. cbn [bind].
    destruct (contexto_p_spec c) as (b & -> & Hb). cbn [bind]. destruct b; cbn [negb].
    2: { left. split; [reflexivity|].
         assert (NC : ~ is_contexto c) by (intros H; apply Hb in H; discriminate).
         unfold rfc5892_other. unfold is_contexto in NC. refine (conj _ (conj _ (conj _ (conj _ (conj _ _))))); intros; exfalso; tauto. }
    assert (C : is_contexto c) by tauto. clear Hb.
    unfold is_arabic_indic, is_ext_arabic_indic.
    unfold is_contexto in C. unfold rfc5892_other, arabic_indic, ext_arabic_indic in *.
    destruct (c =? 0xB7) eqn:E1; [apply Z.eqb_eq in E1|apply Z.eqb_neq in E1].
    { assert (K : A3 pre post <-> ((c = 183 -> A3 pre post) /\ (c = 885 -> A4 U pre post) /\
        (c = 1523 \/ c = 1524 -> A56 U pre post) /\ (c = 12539 -> A7 U (pre ++ c :: post)) /\
        (1632 <= c <= 1641 -> A8 (pre ++ c :: post)) /\ (1776 <= c <= 1785 -> A9 (pre ++ c :: post)))).
      { split; [intros HH; refine (conj _ (conj _ (conj _ (conj _ (conj _ _))))); intros; first [exact HH | exfalso; lia]|tauto]. }
      rewrite <- K. clear K. unfold A3, before_is, after_is.
      destruct (snoc_case pre) as [->|(p & x & ->)].
      - right. split; [cbn [zlen length]; destruct (_ <? 3); reflexivity|].
        intros ((p & b & E & _) & _). destruct p; discriminate.
      - destruct post as [|a q].
        + right. split; [|intros (_ & (a & q & E & _)); discriminate].
          destruct (_ <? 3); [reflexivity|].
          replace (zlen (p ++ [x]) =? zlen ((p ++ [x]) ++ [c]) - 1) with true
            by (symmetry; apply Z.eqb_eq; rewrite (zlen_app (p ++ [x])); unfold zlen; cbn; lia).
          now rewrite orb_true_r.
        + replace (zlen ((p ++ [x]) ++ c :: a :: q) <? 3) with false
            by (symmetry; apply Z.ltb_ge; rewrite !zlen_app, !zlen_cons; pose proof (zlen_nonneg p); pose proof (zlen_nonneg q);
                change (zlen (@nil Z)) with 0; lia).
          replace (_ || _) with false
            by (symmetry; apply orb_false_iff; rewrite !Z.eqb_neq, !zlen_app, !zlen_cons; pose proof (zlen_nonneg p); pose proof (zlen_nonneg q);
                change (zlen (@nil Z)) with 0; lia).
          rewrite rd_last. cbn [bind].
          replace ((p ++ [x]) ++ c :: a :: q) with (((p ++ [x]) ++ [c]) ++ a :: q) by (now rewrite <- (app_assoc (p ++ [x]))).
          replace (zlen (p ++ [x]) + 1) with (zlen ((p ++ [x]) ++ [c])) by (rewrite (zlen_app (p ++ [x])); reflexivity).
          rewrite rd_app. cbn [bind].
          destruct ((x =? 108) && (a =? 108)) eqn:E.
          * left. split; [reflexivity|]. rewrite andb_true_iff, !Z.eqb_eq in E. destruct E as (-> & ->).
            split; [exists p, 108|exists 108, q]; auto.
          * right. split; [reflexivity|]. intros ((p' & b & Eb & ->) & (a' & q' & Ea & ->)).
            apply app_inj_tail in Eb. destruct Eb as (_ & ->). injection Ea as -> _. discriminate. }
    destruct (c =? 0x375) eqn:E2; [apply Z.eqb_eq in E2|apply Z.eqb_neq in E2].
    { assert (K : A4 U pre post <-> ((c = 183 -> A3 pre post) /\ (c = 885 -> A4 U pre post) /\
        (c = 1523 \/ c = 1524 -> A56 U pre post) /\ (c = 12539 -> A7 U (pre ++ c :: post)) /\
        (1632 <= c <= 1641 -> A8 (pre ++ c :: post)) /\ (1776 <= c <= 1785 -> A9 (pre ++ c :: post)))).
      { split; [intros HH; refine (conj _ (conj _ (conj _ (conj _ (conj _ _))))); intros; first [exact HH | exfalso; lia]|tauto]. }
      rewrite <- K. clear K. unfold A4, after_is. destruct post as [|a q].
      - right. split; [|intros (a & q & E & _); discriminate].
        replace (_ =? _) with true by (symmetry; apply Z.eqb_eq; rewrite zlen_app; unfold zlen; cbn; lia). reflexivity.
      - replace (_ =? _) with false
          by (symmetry; apply Z.eqb_neq; rewrite zlen_app, !zlen_cons; pose proof (zlen_nonneg q); lia).
        replace (pre ++ c :: a :: q) with ((pre ++ [c]) ++ a :: q) by (now rewrite <- (app_assoc pre)).
        replace (zlen pre + 1) with (zlen (pre ++ [c])) by (rewrite (zlen_app pre); reflexivity).
        rewrite rd_app. cbn [bind]. destruct (String.eqb (script_name U a) "Greek") eqn:E.
        + left. split; [reflexivity|]. apply script_name_iff in E; [|discriminate]. exists a, q. auto.
        + right. split; [reflexivity|]. apply script_name_false in E; [|discriminate].
          intros (a' & q' & Ea & H). injection Ea as -> _. auto. }
    destruct ((c =? 0x5F3) || (c =? 0x5F4)) eqn:E3;
      [rewrite orb_true_iff, !Z.eqb_eq in E3|rewrite orb_false_iff, !Z.eqb_neq in E3].
    { assert (K : A56 U pre post <-> ((c = 183 -> A3 pre post) /\ (c = 885 -> A4 U pre post) /\
        (c = 1523 \/ c = 1524 -> A56 U pre post) /\ (c = 12539 -> A7 U (pre ++ c :: post)) /\
        (1632 <= c <= 1641 -> A8 (pre ++ c :: post)) /\ (1776 <= c <= 1785 -> A9 (pre ++ c :: post)))).
      { split; [intros HH; refine (conj _ (conj _ (conj _ (conj _ (conj _ _))))); intros; first [exact HH | exfalso; lia]|tauto]. }
      rewrite <- K. clear K. unfold A56, before_is. destruct (snoc_case pre) as [->|(p & x & ->)].
      - right. split; [reflexivity|]. intros (p & b & E & _). destruct p; discriminate.
      - replace (_ =? 0) with false
          by (symmetry; apply Z.eqb_neq; rewrite zlen_app, !zlen_cons; pose proof (zlen_nonneg p); change (zlen (@nil Z)) with 0; lia).
        rewrite rd_last. cbn [bind]. destruct (String.eqb (script_name U x) "Hebrew") eqn:E.
        + left. split; [reflexivity|]. apply script_name_iff in E; [|discriminate]. exists p, x. auto.
        + right. split; [reflexivity|]. apply script_name_false in E; [|discriminate].
          intros (p' & b & Eb & H). apply app_inj_tail in Eb. destruct Eb as (_ & ->). auto. }
    destruct ((0x660 <=? c) && (c <=? 0x669)) eqn:E4;
      [rewrite andb_true_iff, !Z.leb_le in E4|rewrite andb_false_iff, !Z.leb_gt in E4].
    { assert (K : A8 (pre ++ c :: post) <-> ((c = 183 -> A3 pre post) /\ (c = 885 -> A4 U pre post) /\
        (c = 1523 \/ c = 1524 -> A56 U pre post) /\ (c = 12539 -> A7 U (pre ++ c :: post)) /\
        (1632 <= c <= 1641 -> A8 (pre ++ c :: post)) /\ (1776 <= c <= 1785 -> A9 (pre ++ c :: post)))).
      { split; [intros HH; refine (conj _ (conj _ (conj _ (conj _ (conj _ _))))); intros; first [exact HH | exfalso; lia]|tauto]. }
      rewrite <- K. clear K. unfold A8. rewrite <- Exists_neg.
      pose proof (existsb_Exists (fun c => (1776 <=? c) && (c <=? 1785)) ext_arabic_indic (pre ++ c :: post)
        ltac:(intros y; unfold ext_arabic_indic; rewrite andb_true_iff, !Z.leb_le; tauto)) as X.
      unfold ext_arabic_indic in X |- *.
      destruct (existsb _ _); [right|left]; split; try reflexivity.
      - intros H. apply H, X. reflexivity.
      - intros H. apply X in H. discriminate. }
    destruct ((0x6F0 <=? c) && (c <=? 0x6F9)) eqn:E5;
      [rewrite andb_true_iff, !Z.leb_le in E5|rewrite andb_false_iff, !Z.leb_gt in E5].
    { assert (K : A9 (pre ++ c :: post) <-> ((c = 183 -> A3 pre post) /\ (c = 885 -> A4 U pre post) /\
        (c = 1523 \/ c = 1524 -> A56 U pre post) /\ (c = 12539 -> A7 U (pre ++ c :: post)) /\
        (1632 <= c <= 1641 -> A8 (pre ++ c :: post)) /\ (1776 <= c <= 1785 -> A9 (pre ++ c :: post)))).
      { split; [intros HH; refine (conj _ (conj _ (conj _ (conj _ (conj _ _))))); intros; first [exact HH | exfalso; lia]|tauto]. }
      rewrite <- K. clear K. unfold A9. rewrite <- Exists_neg.
      pose proof (existsb_Exists (fun c => (1632 <=? c) && (c <=? 1641)) arabic_indic (pre ++ c :: post)
        ltac:(intros y; unfold arabic_indic; rewrite andb_true_iff, !Z.leb_le; tauto)) as X.
      unfold arabic_indic in X |- *.
      destruct (existsb _ _); [right|left]; split; try reflexivity.
      - intros H. apply H, X. reflexivity.
      - intros H. apply X in H. discriminate. }
    destruct (c =? 0x30FB) eqn:E6; [apply Z.eqb_eq in E6|apply Z.eqb_neq in E6; exfalso; lia].
    assert (K : A7 U (pre ++ c :: post) <-> ((c = 183 -> A3 pre post) /\ (c = 885 -> A4 U pre post) /\
        (c = 1523 \/ c = 1524 -> A56 U pre post) /\ (c = 12539 -> A7 U (pre ++ c :: post)) /\
        (1632 <= c <= 1641 -> A8 (pre ++ c :: post)) /\ (1776 <= c <= 1785 -> A9 (pre ++ c :: post)))).
    { split; [intros HH; refine (conj _ (conj _ (conj _ (conj _ (conj _ _))))); intros; first [exact HH | exfalso; lia]|tauto]. }
    rewrite <- K. clear K. unfold A7.
    match goal with |- context [existsb ?f ?l] => pose proof (existsb_Exists f
      (fun c => script U "Hiragana" c \/ script U "Katakana" c \/ script U "Han" c) l) as X end.
    destruct (existsb _ _); [left|right]; split; try reflexivity.
    - apply X; [|reflexivity]. intros y. rewrite !orb_true_iff, !script_name_iff by discriminate. tauto.
    - intros H. apply X in H; [discriminate|]. intros y. rewrite !orb_true_iff, !script_name_iff by discriminate. tauto.
  Qed.
End P.
