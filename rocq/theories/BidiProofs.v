From Verif Require Import Base Uenv Bidi SpecBidi.

Lemma bidi_eqb_iff : forall a b, bidi_eqb a b = true <-> a = b.
Proof. intros a b. unfold bidi_eqb. destruct (_ : {a = b} + {a <> b}); split; congruence. Qed.
Lemma bidi_eqb_false : forall a b, bidi_eqb a b = false <-> a <> b.
Proof. intros a b. unfold bidi_eqb. destruct (_ : {a = b} + {a <> b}); split; congruence. Qed.

Section P.
  Variable U : uenv.
  Let cls := ue_bidi U.

  Lemma is_bidi_iff : forall l, is_bidi U l = true <-> has_rtl cls l.
  Proof.
    unfold has_rtl. induction l as [|c r IH]; cbn [is_bidi].
    - split; [discriminate|]. intros H. inversion H.
    - rewrite Exists_cons. unfold class_in at 1, cls at 1. cbn [In].
      destruct (bidi_eqb (ue_bidi U c) UC_BIDI_R || bidi_eqb (ue_bidi U c) UC_BIDI_AL || bidi_eqb (ue_bidi U c) UC_BIDI_AN) eqn:E.
      + rewrite !orb_true_iff, !bidi_eqb_iff in E. intuition auto.
      + rewrite !orb_false_iff, !bidi_eqb_false in E. rewrite IH. intuition congruence.
  Qed.

  Definition mids : list bidi_class := [UC_BIDI_ES; UC_BIDI_CS; UC_BIDI_ET; UC_BIDI_ON; UC_BIDI_BN].

  (** Both loops, with their set of "good end" classes. *)
  Lemma loop_gen : forall (f : list Z -> bool -> out unit) (good : list bidi_class),
    (forall e, f [] e = if e then Ok tt else Fail IDN2_BIDI) ->
    (forall c r e, class_in cls good c -> f (c :: r) e = f r true) ->
    (forall c r e, class_in cls mids c -> f (c :: r) e = f r false) ->
    (forall c r e, ~ class_in cls good c -> ~ class_in cls mids c -> f (c :: r) e = Fail IDN2_BIDI) ->
    (forall c, {class_in cls good c} + {~ class_in cls good c}) ->
    forall l e,
    (f l e = Ok tt \/ f l e = Fail IDN2_BIDI) /\
    (f l e = Ok tt <->
      Forall (fun c => class_in cls good c \/ class_in cls mids c) l /\
      match l with [] => e = true | _ => class_in cls good (last l 0) end).
  Proof.
    intros f good H0 H1 H2 H3 D. induction l as [|c r IH]; intros e.
    - rewrite H0. destruct e; split; auto; split; intros; auto; try congruence. destruct H. discriminate.
    - assert (Dm : {class_in cls mids c} + {~ class_in cls mids c})
        by (unfold class_in; apply in_dec; decide equality).
      assert (L : forall x, match r with [] => x = true | _ :: _ => class_in cls good (last r 0) end ->
                  r <> [] -> class_in cls good (last (c :: r) 0)) by (intros x; destruct r; [congruence|auto]).
      destruct (D c) as [G|G].
      + rewrite H1 by auto. destruct (IH true) as (S & I). split; [exact S|]. rewrite I.
        split; intros (A & B); split.
        * constructor; auto.
        * destruct r; [exact G|exact B].
        * now inversion A.
        * destruct r; [reflexivity|exact B].
      + destruct Dm as [M|M].
        * rewrite H2 by auto. destruct (IH false) as (S & I). split; [exact S|]. rewrite I.
          split; intros (A & B); split.
          -- constructor; auto.
          -- destruct r; [discriminate|exact B].
          -- now inversion A.
          -- destruct r; [|exact B]. cbn [last] in B. contradiction.
        * rewrite H3 by auto. split; [auto|]. split; [discriminate|]. intros (A & _). inversion A; subst. tauto.
  Qed.

  Lemma ltr_gen : forall l e,
    (bidi_ltr U l e = Ok tt \/ bidi_ltr U l e = Fail IDN2_BIDI) /\
    (bidi_ltr U l e = Ok tt <->
      Forall (fun c => class_in cls [UC_BIDI_NSM; UC_BIDI_L; UC_BIDI_EN] c \/ class_in cls mids c) l /\
      match l with [] => e = true | _ => class_in cls [UC_BIDI_NSM; UC_BIDI_L; UC_BIDI_EN] (last l 0) end).
  Proof.
    apply loop_gen.
    - reflexivity.
    - unfold class_in, cls; cbn [In bidi_ltr]. intros c r e H. destruct (ue_bidi U c); try reflexivity; exfalso; intuition discriminate.
    - unfold class_in, cls, mids; cbn [In bidi_ltr]. intros c r e H. destruct (ue_bidi U c); try reflexivity; exfalso; intuition discriminate.
    - unfold class_in, cls, mids; cbn [In bidi_ltr]. intros c r e H H'. destruct (ue_bidi U c); try reflexivity; exfalso; intuition auto.
    - intros c. unfold class_in. apply in_dec. decide equality.
  Qed.

  Lemma rtl_gen : forall l e,
    (bidi_rtl U l e = Ok tt \/ bidi_rtl U l e = Fail IDN2_BIDI) /\
    (bidi_rtl U l e = Ok tt <->
      Forall (fun c => class_in cls (UC_BIDI_NSM :: rtl_end) c \/ class_in cls mids c) l /\
      match l with [] => e = true | _ => class_in cls (UC_BIDI_NSM :: rtl_end) (last l 0) end).
  Proof.
    apply loop_gen.
    - reflexivity.
    - unfold class_in, cls, rtl_end; cbn [In bidi_rtl]. intros c r e H. destruct (ue_bidi U c); try reflexivity; exfalso; intuition discriminate.
    - unfold class_in, cls, mids; cbn [In bidi_rtl]. intros c r e H. destruct (ue_bidi U c); try reflexivity; exfalso; intuition discriminate.
    - unfold class_in, cls, mids, rtl_end; cbn [In bidi_rtl]. intros c r e H H'. destruct (ue_bidi U c); try reflexivity; exfalso; intuition auto.
    - intros c. unfold class_in. apply in_dec. decide equality.
  Qed.

  Lemma last_split : forall (c : Z) r, exists a, c :: r = a ++ [last (c :: r) 0].
  Proof. intros c r. exists (removelast (c :: r)). apply app_removelast_last. discriminate. Qed.

  Lemma ends_weak_last : forall s c r, ends_weak cls s (c :: r) <-> class_in cls (UC_BIDI_NSM :: s) (last (c :: r) 0).
  Proof.
    intros s c r. unfold ends_weak. split.
    - intros (a & x & E & H). rewrite E, last_last. exact H.
    - intros H. destruct (last_split c r) as (a & E). exists a, (last (c :: r) 0). auto.
  Qed.

  Lemma last_cons_cases : forall (c : Z) r, last (c :: r) 0 = match r with [] => c | _ => last r 0 end.
  Proof. intros c [|x r]; reflexivity. Qed.

  Lemma bidi_safe : forall l, bidi U l = Ok tt \/ bidi U l = Fail IDN2_BIDI.
  Proof.
    intros l. unfold bidi. destruct (is_bidi U l) eqn:B; [|auto]. cbn [negb].
    destruct l as [|c r]; [discriminate|].
    destruct (ue_bidi U c); auto; try apply ltr_gen; apply rtl_gen.
  Qed.

  Lemma bidi_iff : forall l, bidi U l = Ok tt <-> (~ has_rtl cls l \/ bidi_rule_implemented cls l).
  Proof.
    intros l. unfold bidi. destruct (is_bidi U l) eqn:B; cbn [negb].
    2: { split; [|auto]. intros _. left. rewrite <- is_bidi_iff. congruence. }
    apply is_bidi_iff in B. destruct l as [|c r]; [inversion B|].
    assert (R : rtl_start cls (c :: r) <-> class_in cls [UC_BIDI_R; UC_BIDI_AL] c).
    { unfold rtl_start, starts. split; [intros (x & y & E & H); congruence|eauto]. }
    assert (L : ltr_start cls (c :: r) <-> class_in cls [UC_BIDI_L] c).
    { unfold ltr_start, starts. split; [intros (x & y & E & H); congruence|eauto]. }
    assert (M : forall (A B : Prop), (A <-> B) -> (A <-> (~ has_rtl cls (c :: r) \/ B))) by (intros; tauto).
    apply M. clear M.
    unfold bidi_rule_implemented, rule1, rule2, rule3_weak, rule5, rule6_weak. rewrite R, L, !ends_weak_last.
    rewrite last_cons_cases, !Forall_cons_iff.
    destruct (ue_bidi U c) eqn:C;
      try (split; [discriminate|]; intros ([H|H] & _); unfold class_in, cls in H; rewrite C in H; cbn [In] in H;
           intuition discriminate).
    - (* L *)
      pose proof (ltr_gen r true) as (_ & G). rewrite G.
      assert (A1 : class_in cls [UC_BIDI_L] c) by (unfold class_in, cls; rewrite C; cbn; auto).
      assert (A2 : ~ class_in cls [UC_BIDI_R; UC_BIDI_AL] c) by (unfold class_in, cls; rewrite C; cbn; intuition discriminate).
      split.
      + intros (F & E). split; [auto|]. split; [tauto|]. split; [tauto|]. split; intros _.
        * split; [unfold class_in, cls; rewrite C; cbn; auto|]. eapply Forall_impl; [|exact F].
          unfold class_in, mids. cbn [In]. tauto.
        * destruct r; [unfold class_in, cls; rewrite C; cbn; auto|]. exact E.
      + intros (_ & _ & _ & F & E). specialize (F A1). specialize (E A1). split.
        * eapply Forall_impl; [|apply F]. unfold class_in, mids. cbn [In]. tauto.
        * destruct r; [reflexivity|exact E].
    - pose proof (rtl_gen r true) as (_ & G). rewrite G.
      assert (A1 : class_in cls [UC_BIDI_R; UC_BIDI_AL] c) by (unfold class_in, cls; rewrite C; cbn; auto).
      assert (A2 : ~ class_in cls [UC_BIDI_L] c) by (unfold class_in, cls; rewrite C; cbn; intuition discriminate).
      split.
      + intros (F & E). split; [auto|]. split; [intros _|split; [intros _|split; tauto]].
        * split; [unfold class_in, cls; rewrite C; cbn; auto|]. eapply Forall_impl; [|exact F].
          unfold class_in, mids, rtl_end. cbn [In]. tauto.
        * destruct r; [unfold class_in, cls; rewrite C; cbn; auto|]. exact E.
      + intros (_ & F & E & _). specialize (F A1). specialize (E A1). split.
        * eapply Forall_impl; [|apply F]. unfold class_in, mids, rtl_end. cbn [In]. tauto.
        * destruct r; [reflexivity|exact E].
    - pose proof (rtl_gen r true) as (_ & G). rewrite G.
      assert (A1 : class_in cls [UC_BIDI_R; UC_BIDI_AL] c) by (unfold class_in, cls; rewrite C; cbn; auto).
      assert (A2 : ~ class_in cls [UC_BIDI_L] c) by (unfold class_in, cls; rewrite C; cbn; intuition discriminate).
      split.
      + intros (F & E). split; [auto|]. split; [intros _|split; [intros _|split; tauto]].
        * split; [unfold class_in, cls; rewrite C; cbn; auto|]. eapply Forall_impl; [|exact F].
          unfold class_in, mids, rtl_end. cbn [In]. tauto.
        * destruct r; [unfold class_in, cls; rewrite C; cbn; auto|]. exact E.
      + intros (_ & F & E & _). specialize (F A1). specialize (E A1). split.
        * eapply Forall_impl; [|apply F]. unfold class_in, mids, rtl_end. cbn [In]. tauto.
        * destruct r; [reflexivity|exact E].
  Qed.

  Lemma ends_ends_weak : forall s l, ends cls s l -> ends_weak cls s l.
  Proof.
    intros s l (a & c & n & E & H & F). destruct (exists_last (l := c :: n) ltac:(discriminate)) as (q & x & Q).
    exists (a ++ q), x. split; [rewrite E, Q; apply app_assoc|].
    assert (I : In x (c :: n)) by (rewrite Q; apply in_or_app; right; left; reflexivity).
    destruct I as [<-|I]; [right; exact H|]. rewrite Forall_forall in F. apply F in I.
    unfold class_in in *. cbn [In] in *. tauto.
  Qed.

  (** Every label that satisfies RFC 5893 is accepted. *)
  Lemma bidi_complete : forall l, rfc5893 cls l -> bidi U l = Ok tt.
  Proof.
    intros l (H1 & H2 & H3 & H4 & H5 & H6). apply bidi_iff. right.
    repeat split; auto; intros H; apply ends_ends_weak; auto.
  Qed.
End P.
