(** Failure of ToUnicode in terms of SpecUniRefusal. *)
From Verif Require Import Base PunyBase Uenv SpecUtf8 SpecPuny SpecLookup SpecUnicode Utf8 Utf8Proofs Puny PunyTop PunyExact Lookup MapProofs LookupTr46 LookupTop LookupProofs
  BaseTop Api ApiProofs DecodeProofs SpecPunyErr PunyErr SpecUniRefusal.

Lemma label_fail : forall s rc, bytes s -> zlen s < two64 -> (unicode_label s = Fail rc <-> no_unicode s rc).
Proof.
  intros s rc B L. unfold unicode_label. change LABEL_MAX with 63. destruct (ace_anycase s) eqn:E.
  - apply ace_anycase_iff in E. destruct E as (t & A). rewrite (ace_label_skip _ _ A).
    assert (LT : zlen t < two64) by (pose proof (skipn_zlen 4 s) as X; rewrite (ace_label_skip _ _ A) in X; lia).
    rewrite decode_errors by (auto; lia). split; [now apply nu_ace|].
    intros [t' r A' H|N|l N]; [|destruct N; eauto..].
    assert (t' = t) as <- by (rewrite <- (ace_label_skip _ _ A), <- (ace_label_skip _ _ A'); reflexivity). exact H.
  - assert (N : ~ exists t, ace_label s t) by (intros X; apply ace_anycase_iff in X; congruence).
    destruct (u8_to_u32 s) as [m|] eqn:V; cbn [conv bind].
    + apply u8_to_u32_iff in V; auto.
      assert (UQ : forall l, utf8 l s -> l = m) by (intros l Hl; apply u8_to_u32_iff in V, Hl; auto; congruence).
      destruct (63 <? zlen m) eqn:Z; zb.
      * split; [intros H; assert (rc = IDN2_TOO_BIG_LABEL) as -> by congruence; now apply (nu_long s m)|].
        intros [t r A|_ X|l _ _ _]; [destruct N; eauto|destruct (X m V)|reflexivity].
      * split; [discriminate|]. intros [t r A|_ X|l _ V' Z']; [destruct N; eauto|destruct (X m V)|]. rewrite (UQ l V') in Z'. lia.
    + assert (X : forall l, ~ utf8 l s) by (intros l Hl; apply u8_to_u32_iff in Hl; auto; congruence).
      split; [intros H; assert (rc = IDN2_ENCODING_ERROR) as -> by congruence; now apply nu_utf8|].
      intros [t r A|_ _|l _ V' _]; [destruct N; eauto|reflexivity|destruct (X l V')].
Qed.

(** [unicode_refused] with [acc] already written. *)
Definition refused_from (acc : list Z) (ls : list (list Z)) (rc : Z) : Prop :=
  exists a x b rs, ls = a ++ x :: b /\ Forall2 unicode_of a rs /\ zlen (acc ++ stopped rs) <= 255 /\
    (no_unicode x rc \/
     (exists r, unicode_of x r /\ rc = IDN2_TOO_BIG_DOMAIN /\ 255 < zlen (acc ++ stopped rs ++ r) + match b with [] => 0 | _ => 1 end)).

Lemma from_cons : forall acc s rest rc, refused_from acc (s :: rest) rc <->
  (zlen acc <= 255 /\ (no_unicode s rc \/ (exists r, unicode_of s r /\ rc = IDN2_TOO_BIG_DOMAIN /\ 255 < zlen (acc ++ r) + match rest with [] => 0 | _ => 1 end))) \/
  (exists r, unicode_of s r /\ refused_from (acc ++ r ++ [46]) rest rc).
Proof.
  intros acc s rest rc. split.
  - intros (a & x & b & rs & E & F & Z & H). destruct a as [|y a]; cbn [app] in E; injection E as <- ->.
    + inversion F; subst. cbn [stopped app] in *. rewrite app_nil_r in Z. now left.
    + inversion F as [|? r ? rs' U F']; subst. right. exists r. split; [exact U|]. exists a, x, b, rs'. split; [reflexivity|]. split; [exact F'|].
      cbn [stopped] in *. rewrite <- !app_assoc in *. cbn [app] in *. split; [exact Z|].
      destruct H as [H|(q & H1 & H2 & H3)]; [now left|right]. exists q. split; [exact H1|]. split; [exact H2|]. rewrite <- ?app_assoc in *. cbn [app] in *. exact H3.
  - intros [(Z & H)|(r & U & (a & x & b & rs & -> & F & Z & H))].
    + exists [], s, rest, []. cbn [stopped app]. rewrite app_nil_r. repeat split; auto.
    + exists (s :: a), x, b, (r :: rs). split; [reflexivity|]. split; [now constructor|]. cbn [stopped]. rewrite <- !app_assoc in *. cbn [app] in *. split; [exact Z|].
      destruct H as [H|(q & H1 & H2 & H3)]; [now left|right]. exists q. split; [exact H1|]. split; [exact H2|]. rewrite <- ?app_assoc in *. cbn [app] in *. exact H3.
Qed.
Lemma from_acc : forall acc ls rc, refused_from acc ls rc -> zlen acc <= 255.
Proof. intros acc ls rc (a & x & b & rs & _ & _ & Z & _). rewrite zlen_app in Z. pose proof (zlen_nonneg _ (stopped rs)). lia. Qed.

Lemma labels_fail : forall ls acc rc, Forall (fun s => bytes s /\ zlen s < two64) ls -> zlen acc <= 255 ->
  (unicode_labels ls acc = Fail rc <-> refused_from acc ls rc).
Proof.
  induction ls as [|s rest IH]; intros acc rc F LA.
  { cbn [unicode_labels]. split; [discriminate|]. intros (a & x & b & rs & E & _). destruct a; discriminate. }
  inversion F as [|? ? (B & L) F']; subst. rewrite from_cons.
  assert (GO : (let dot := match rest with [] => 0 | _ => 1 end in
     let* l := unicode_label s in
     if DOMAIN_MAX <? zlen acc + zlen l + dot then Fail IDN2_TOO_BIG_DOMAIN
     else if DOMAIN_MAX + 1 <? zlen acc + zlen l then Undef
     else match rest with
          | [] => Ok (acc ++ l)
          | _ => let* acc' := put (DOMAIN_MAX + 1) (acc ++ l) 46 in unicode_labels rest acc'
          end) = Fail rc <-> 
   ((zlen acc <= 255 /\ (no_unicode s rc \/ (exists r, unicode_of s r /\ rc = IDN2_TOO_BIG_DOMAIN /\ 255 < zlen (acc ++ r) + match rest with [] => 0 | _ => 1 end))) \/
  (exists r, unicode_of s r /\ refused_from (acc ++ r ++ [46]) rest rc))).
  { cbv zeta. change (DOMAIN_MAX + 1) with 256. change DOMAIN_MAX with 255.
    pose proof (unicode_label_safe s B L) as SF. destruct (unicode_label s) as [l|c| |] eqn:EL; try contradiction; cbn [bind].
    2:{ assert (NU : forall r, ~ unicode_of s r) by (intros r U; apply unicode_label_iff in U; auto; congruence).
        split; [intros H; assert (c = rc) as <- by congruence; left; split; [exact LA|left; now apply label_fail]|].
        intros [(_ & [H|(r & U & _)])|(r & U & _)]; [|destruct (NU r U)..]. apply label_fail in H; auto. congruence. }
    assert (NN : ~ no_unicode s rc) by (intros H; apply label_fail in H; auto; congruence).
    assert (UQ : forall r, unicode_of s r -> r = l) by (intros r U; apply unicode_label_iff in U; auto; congruence).
    apply unicode_label_iff in EL; auto. pose proof (zlen_nonneg _ acc). pose proof (zlen_nonneg _ l).
    destruct (255 <? _) eqn:E1; zb.
    - split; [intros X; assert (rc = IDN2_TOO_BIG_DOMAIN) as -> by congruence; left; split; [exact LA|right; exists l; rewrite zlen_app; auto]|].
      intros [(_ & [X|(r & U & -> & _)])|(r & U & X)]; [contradiction|reflexivity|]. rewrite (UQ r U) in X. pose proof (from_acc _ _ _ X) as Z.
      rewrite !zlen_app in Z. change (zlen [46]) with 1 in Z. destruct rest; [|lia]. destruct X as (a & x & b & rs & X & _). destruct a; discriminate.
    - destruct (256 <? _) eqn:E2; zb; [destruct rest; lia|]. assert (NT : forall r, unicode_of s r -> ~ 255 < zlen (acc ++ r) + match rest with [] => 0 | _ => 1 end).
      { intros r U. rewrite (UQ r U), zlen_app. lia. }
      assert (RW : forall P : Prop, (((zlen acc <= 255 /\ (no_unicode s rc \/ (exists r, unicode_of s r /\ rc = IDN2_TOO_BIG_DOMAIN /\ 255 < zlen (acc ++ r) + match rest with [] => 0 | _ => 1 end))) \/ P) <-> P)).
      { intros P. split; [|auto]. intros [(_ & [X|(r & U & _ & X)])|X]; [contradiction|destruct (NT r U X)|exact X]. }
      rewrite RW. destruct rest as [|s2 rest].
      + split; [discriminate|]. intros (r & _ & (a & x & b & rs & X & _)). destruct a; discriminate.
      + unfold put. rewrite zlen_app. destruct (_ <? 256) eqn:E3; zb; [|lia]. cbn [bind]. rewrite <- app_assoc.
        rewrite IH; auto; [|rewrite !zlen_app; change (zlen [46]) with 1; lia]. split; [intros X; exists l; auto|]. intros (r & U & X). now rewrite (UQ r U) in X. }
  cbn [unicode_labels]. destruct s as [|c s]; [destruct rest as [|s2 rest]|]; auto.
  split; [discriminate|]. intros H. exfalso. apply GO in H. cbv zeta in H. cbn [bind] in H. change (unicode_label []) with (Ok [] : out (list Z)) in H. cbn [bind] in H.
  change (DOMAIN_MAX + 1) with 256 in H. change DOMAIN_MAX with 255 in H. rewrite zlen_nil in H. destruct (255 <? _) eqn:E1; zb; [lia|]. destruct (256 <? _) eqn:E2; zb; [lia|]. discriminate.
Qed.

Lemma stopped_snoc : forall rs r, stopped (rs ++ [r]) = stopped rs ++ r ++ [46].
Proof. induction rs as [|x rs IH]; intros r; cbn [app stopped]; [reflexivity|]. rewrite IH, <- app_assoc. reflexivity. Qed.

Lemma unicode_fail : forall s rc, c_string s -> zlen s < two64 -> (unicode s = Fail rc <-> unicode_refused s rc).
Proof.
  intros s rc C L. unfold unicode.
  assert (B : forall m : out (list Z), (let* o := m in if DOMAIN_MAX <? zlen o then Undef else Ok o) = Fail rc <-> m = Fail rc).
  { intros [o|c| |]; cbn [bind]; try tauto. destruct (_ <? _); split; discriminate. }
  rewrite B. rewrite labels_fail; [|now apply split_bytes_len|rewrite zlen_nil; lia]. unfold refused_from. cbn [app]. split.
  - intros (a & x & b & rs & E & F & Z & H). assert (D : dotted (a ++ x :: b) s) by (rewrite <- E; now apply dotted_iff).
    destruct H as [H|(r & U & -> & H)]; [now apply (ur_label s a x b rs)|]. destruct b as [|y b].
    + apply (ur_last s a x rs r); auto. lia.
    + apply (ur_total s a x (y :: b) rs r); auto; [discriminate|]. rewrite stopped_snoc, !zlen_app in *. change (zlen [46]) with 1. lia.
  - intros [a x b rs r D F Z H|a x rs r D F Z U H|a x b rs r D NB F Z U H]; apply dotted_iff in D.
    + exists a, x, b, rs. auto.
    + exists a, x, [], rs. repeat split; auto. right. exists r. repeat split; auto. lia.
    + exists a, x, b, rs. repeat split; auto. right. exists r. repeat split; auto. rewrite stopped_snoc, !zlen_app in *. change (zlen [46]) with 1 in H. destruct b; [congruence|lia].
Qed.
