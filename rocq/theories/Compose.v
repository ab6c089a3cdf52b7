(** Lookup of a name made of two. *)
From Verif Require Import Base PunyBase Uenv DataTypes SpecUtf8 SpecPuny SpecTables SpecBidi SpecLabel SpecNfc SpecLookup SpecToAscii
  Lookup MapProofs LookupProofs RoundTrip ApiProofs Utf8Proofs ToAsciiProofs.

Lemma utf8_char_46 : forall c bs, utf8_char c bs -> In 46 bs -> c = 46 /\ bs = [46].
Proof.
  intros c bs H I. destruct H; cbn [In] in I; [destruct I as [I|[]]; subst; auto| | |]; exfalso; lia.
Qed.
Lemma utf8_dot : forall l s, utf8 l s -> forall a b, s = a ++ 46 :: b -> exists la lb, l = la ++ 46 :: lb /\ utf8 la a /\ utf8 lb b.
Proof.
  induction 1 as [|c bs l s C H IH]; intros a b E; [destruct a; discriminate|].
  assert (X : (exists a', a = bs ++ a' /\ s = a' ++ 46 :: b) \/ (exists b', bs = a ++ 46 :: b' /\ b = b' ++ s)).
  { clear -E. revert a E. induction bs as [|x bs IH]; intros a E; [left; exists a; auto|].
    destruct a as [|y a]; cbn [app] in E; [injection E as <- E; right; exists bs; auto|]. injection E as <- E.
    destruct (IH a E) as [(a' & -> & Hs)|(b' & -> & Hb)]; [left; exists a'|right; exists b']; auto. }
  destruct X as [(a' & -> & Hs)|(b' & Hb & ->)].
  - destruct (IH a' b Hs) as (la & lb & -> & A & B). exists (c :: la), lb. split; [reflexivity|]. split; [now constructor|exact B].
  - destruct (utf8_char_46 c bs C) as [-> E1]; [rewrite Hb; apply in_or_app; right; now left|]. rewrite E1 in Hb.
    destruct a as [|? [|? ?]]; cbn [app] in Hb; [|discriminate|discriminate]. injection Hb as <-. exists [], l. split; [reflexivity|]. split; [constructor|exact H].
Qed.
Lemma join_app : forall a b, a <> [] -> b <> [] -> join (a ++ b) = join a ++ 46 :: join b.
Proof.
  induction a as [|x a IH]; intros b A B; [congruence|]. destruct a as [|y a].
  - cbn [app]. destruct b as [|z b]; [congruence|]. reflexivity.
  - change ((x :: y :: a) ++ b) with (x :: y :: (a ++ b)). rewrite !join_cons. specialize (IH b ltac:(discriminate) B).
    change ((y :: a) ++ b) with (y :: (a ++ b)) in IH. rewrite IH. now rewrite <- app_assoc.
Qed.
Lemma dotted_glue : forall la lb a b, dotted la a -> dotted lb b -> dotted (la ++ lb) (a ++ 46 :: b).
Proof.
  intros la lb a b (A & FA & ->) (B & FB & ->). split; [destruct la; [congruence|discriminate]|]. split; [apply Forall_app; auto|].
  symmetry. now apply join_app.
Qed.
Lemma dotted_exists : forall s, dotted (split_dots s) s. Proof. intros s. now apply dotted_iff. Qed.
Lemma dotted_fun : forall l1 l2 s, dotted l1 s -> dotted l2 s -> l1 = l2.
Proof. intros l1 l2 s A B. apply dotted_iff in A, B. congruence. Qed.
Lemma dotted_cut : forall ls a b, dotted ls (a ++ 46 :: b) -> exists la lb, ls = la ++ lb /\ dotted la a /\ dotted lb b.
Proof.
  intros ls a b H. exists (split_dots a), (split_dots b). split; [|split; apply dotted_exists].
  apply (dotted_fun _ _ _ H). apply dotted_glue; apply dotted_exists.
Qed.
Lemma last_app_ne : forall (a b : list (list Z)), b <> [] -> last (a ++ b) [] = last b [].
Proof.
  induction a as [|x a IH]; intros b N; [reflexivity|]. cbn [app]. rewrite <- (IH b N). destruct (a ++ b) as [|y r] eqn:E; [|reflexivity].
  apply app_eq_nil in E. destruct E. congruence.
Qed.
Lemma last_empty : forall ds r, dotted ds r -> (last ds [] = [] <-> ends_in_dot r).
Proof.
  intros ds r (N & F & ->). split.
  - intros L. destruct (join ds) as [|c x] eqn:E; [left; reflexivity|]. right. rewrite <- E. apply last_join; auto. rewrite E. unfold zlen. cbn [length]. lia.
  - induction ds as [|x ds IH]; [congruence|]. destruct ds as [|y ds].
    + cbn [join last]. intros [->|(t & ->)]; [reflexivity|]. exfalso. apply (Forall_inv F). apply in_or_app; right; now left.
    + rewrite join_cons. intros E. change (last (x :: y :: ds) []) with (last (y :: ds) []). apply IH; [discriminate|now inversion F|].
      destruct E as [E|(t & E)]; [destruct x; discriminate|]. destruct (join (y :: ds)) as [|c w] eqn:J; [left; reflexivity|right].
      destruct (exists_last (l := c :: w)) as (t' & z & E'); [discriminate|]. rewrite E' in *. exists t'. f_equal.
      change (x ++ 46 :: (t' ++ [z])) with (x ++ (46 :: t') ++ [z]) in E. rewrite app_assoc in E. apply app_inj_tail in E. destruct E as [_ <-]. reflexivity.
Qed.
Lemma map_dot : forall t3 st a b, uts46_map t3 st (a ++ 46 :: b) = uts46_map t3 st a ++ 46 :: uts46_map t3 st b.
Proof. intros. unfold uts46_map. rewrite flat_map_app. cbn [flat_map]. replace (map1 t3 st 46) with [46] by (destruct t3, st; vm_compute; reflexivity). reflexivity. Qed.

Lemma utf8_code_fun : forall l1 l2 s, utf8 l1 s -> utf8 l2 s -> c_string s -> l1 = l2.
Proof.
  intros l1 l2 s A B C. assert (Y : bytes s) by (eapply Forall_impl; [|exact C]; cbn; intros; lia).
  apply u8_to_u32_iff in A, B; auto. congruence.
Qed.

Section Compose.
  Variable U : uenv.
  Hypothesis K : nfc_ok U.

  Lemma accepts_cut : forall f a b r, accepts U f (a ++ 46 :: b) r -> exists ra rb, accepts U f a ra /\ accepts U f b rb /\ r = ra ++ 46 :: rb.
  Proof.
    assert (SZ : forall da db r ra rb, dotted (da ++ db) r -> dotted da ra -> dotted db rb -> r = ra ++ 46 :: rb -> name_fits (da ++ db) r -> name_fits da ra /\ name_fits db rb).
    { intros da db r ra rb D A B -> F. unfold name_fits in *. rewrite last_app_ne in F by exact (proj1 B).
      assert (Zr : zlen (ra ++ 46 :: rb) = zlen ra + 1 + zlen rb) by (unfold zlen; rewrite app_length; cbn [length]; lia). rewrite Zr in F.
      assert (0 <= zlen ra) by (unfold zlen; lia). assert (0 <= zlen rb) by (unfold zlen; lia).
      split; [left; lia|]. left. lia. }
    intros f a b r (NB & H). unfold accepts. destruct (opt_no_tr46 f) eqn:T.
    - destruct H as (ls & ds & D & F & R & N). apply dotted_cut in D. destruct D as (la & lb & -> & DA & DB).
      apply Forall2_app_inv_l in F. destruct F as (da & db & FA & FB & ->).
      assert (NA : da <> []) by (intros ->; inversion FA; subst; exact (proj1 DA eq_refl)).
      assert (NB' : db <> []) by (intros ->; inversion FB; subst; exact (proj1 DB eq_refl)).
      destruct R as (R1 & R2 & R3). apply Forall_app in R2. destruct R2 as [RA RB]. rewrite join_app in R3 by auto.
      assert (XA : dotted da (join da)) by (split; auto). assert (XB : dotted db (join db)) by (split; auto).
      destruct (SZ da db r (join da) (join db)) as [SA SB]; auto.
      { rewrite R3. now apply dotted_glue. }
      exists (join da), (join db). split; [split; [exact NB|]; exists la, da; auto|]. split; [split; [exact NB|]; exists lb, db; auto|exact R3].
    - destruct H as (l & n & ls & ds & Ul & ND & ML & NF & D & F & R & N).
      destruct (utf8_dot _ _ Ul a b eq_refl) as (l1 & l2 & -> & U1 & U2). rewrite map_dot in *.
      rewrite (nfc_separator U K 46) in NF by (right; reflexivity).
      destruct (ue_nfc U (uts46_map _ _ l1)) as [n1|] eqn:N1; [|discriminate]. destruct (ue_nfc U (uts46_map _ _ l2)) as [n2|] eqn:N2; [|discriminate].
      assert (n = n1 ++ 46 :: n2) as -> by congruence. apply dotted_cut in D. destruct D as (la & lb & -> & DA & DB).
      apply Forall2_app_inv_l in F. destruct F as (da & db & FA & FB & ->).
      assert (NA : da <> []) by (intros ->; inversion FA; subst; exact (proj1 DA eq_refl)).
      assert (NB' : db <> []) by (intros ->; inversion FB; subst; exact (proj1 DB eq_refl)).
      destruct R as (R1 & R2 & R3). apply Forall_app in R2. destruct R2 as [RA RB]. rewrite join_app in R3 by auto.
      assert (XA : dotted da (join da)) by (split; auto). assert (XB : dotted db (join db)) by (split; auto).
      destruct (SZ da db r (join da) (join db)) as [SA SB]; auto.
      { rewrite R3. now apply dotted_glue. }
      assert (ZL : forall x y : list Z, zlen (x ++ 46 :: y) = zlen x + 1 + zlen y) by (intros; unfold zlen; rewrite app_length; cbn [length]; lia).
      rewrite ZL in ML. assert (0 <= zlen (uts46_map (opt_transitional f) (opt_std3 f) l1)) by (unfold zlen; lia). assert (0 <= zlen (uts46_map (opt_transitional f) (opt_std3 f) l2)) by (unfold zlen; lia).
      exists (join da), (join db). split; [|split; [|exact R3]]; (split; [exact NB|]).
      + exists l1, n1, la, da. split; [exact U1|]. split; [intros X; apply ND; apply Exists_app; auto|]. split; [lia|]. auto.
      + exists l2, n2, lb, db. split; [exact U2|]. split; [intros X; apply ND; apply Exists_app; right; apply Exists_cons_tl; auto|]. split; [lia|]. auto.
  Qed.
  Lemma accepts_glue : forall f a b ra rb, accepts U f a ra -> accepts U f b rb ->
    (zlen (ra ++ 46 :: rb) <= 253 \/ (zlen (ra ++ 46 :: rb) = 254 /\ ends_in_dot rb)) ->
    (opt_no_tr46 f = false -> forall l, utf8 l (a ++ 46 :: b) -> zlen (uts46_map (opt_transitional f) (opt_std3 f) l) < 255) ->
    accepts U f (a ++ 46 :: b) (ra ++ 46 :: rb).
  Proof.
    intros f a b ra rb (NB & HA) (_ & HB) Z M. split; [exact NB|]. destruct (opt_no_tr46 f).
    - destruct HA as (la & da & DA & FA & RA & _), HB as (lb & db & DB & FB & RB & _). exists (la ++ lb), (da ++ db).
      split; [now apply dotted_glue|]. split; [now apply Forall2_app|]. split; [now apply dotted_glue|].
      unfold name_fits. rewrite last_app_ne by exact (proj1 RB). rewrite (last_empty _ _ RB). exact Z.
    - destruct HA as (l1 & n1 & la & da & U1 & D1 & _ & N1 & DA & FA & RA & _), HB as (l2 & n2 & lb & db & U2 & D2 & _ & N2 & DB & FB & RB & _).
      assert (UU : utf8 (l1 ++ 46 :: l2) (a ++ 46 :: b)).
      { apply utf8_app; [exact U1|]. apply (utf8_cons 46 [46]); [apply utf8_1; lia|exact U2]. }
      exists (l1 ++ 46 :: l2), (n1 ++ 46 :: n2), (la ++ lb), (da ++ db). split; [exact UU|].
      split; [rewrite Exists_app; intros [X|X]; [auto|]; apply Exists_cons in X; destruct X as [X|X]; [vm_compute in X; discriminate|auto]|].
      split; [now apply M|]. split; [rewrite map_dot, (nfc_separator U K 46), N1, N2 by (right; reflexivity); reflexivity|].
      split; [now apply dotted_glue|]. split; [now apply Forall2_app|]. split; [now apply dotted_glue|].
      unfold name_fits. rewrite last_app_ne by exact (proj1 RB). rewrite (last_empty _ _ RB). exact Z.
  Qed.

  Lemma accepts_fits : forall f s r, accepts U f s r -> zlen r <= 253 \/ (zlen r = 254 /\ ends_in_dot r).
  Proof.
    intros f s r (_ & H). destruct (opt_no_tr46 f).
    - destruct H as (ls & ds & _ & _ & R & N). unfold name_fits in N. rewrite (last_empty _ _ R) in N. exact N.
    - destruct H as (l & n & ls & ds & _ & _ & _ & _ & _ & _ & R & N). unfold name_fits in N. rewrite (last_empty _ _ R) in N. exact N.
  Qed.
  Lemma lookup_compose : forall a b f r, c_string a -> c_string b -> zlen (a ++ 46 :: b) < two64 ->
    (lookup_u8 U (a ++ 46 :: b) f = Ok r <->
     exists ra rb, lookup_u8 U a f = Ok ra /\ lookup_u8 U b f = Ok rb /\ r = ra ++ 46 :: rb /\
       (zlen r <= 253 \/ (zlen r = 254 /\ ends_in_dot rb)) /\
       (opt_no_tr46 f = false -> forall l, utf8 l (a ++ 46 :: b) -> zlen (uts46_map (opt_transitional f) (opt_std3 f) l) < 255)).
  Proof.
    intros a b f r CA CB L.
    assert (ZL : zlen (a ++ 46 :: b) = zlen a + 1 + zlen b) by (unfold zlen; rewrite app_length; cbn [length]; lia).
    assert (LA : zlen a < two64) by (unfold zlen in *; lia). assert (LB : zlen b < two64) by (unfold zlen in *; lia).
    assert (CC : c_string (a ++ 46 :: b)) by (apply Forall_app; split; [exact CA|constructor; [lia|exact CB]]).
    rewrite (lookup_exact U K _ f r CC L). split.
    - intros H. pose proof (accepts_fits f _ r H) as Z. destruct (accepts_cut f a b r H) as (ra & rb & A & B & ->). exists ra, rb.
      rewrite (lookup_exact U K a f ra CA LA), (lookup_exact U K b f rb CB LB). split; [exact A|]. split; [exact B|]. split; [reflexivity|].
      split.
      + destruct Z as [Z|(Z & E)]; [left; exact Z|right]. split; [exact Z|]. destruct E as [E|(t & E)]; [destruct ra; discriminate|].
        destruct rb as [|c x]; [left; reflexivity|right]. destruct (exists_last (l := c :: x)) as (t' & z & E'); [discriminate|]. rewrite E' in *.
        change (ra ++ 46 :: (t' ++ [z])) with (ra ++ (46 :: t') ++ [z]) in E. rewrite app_assoc in E. apply app_inj_tail in E. destruct E as [_ <-]. eauto.
      + intros T l Ul. destruct H as (_ & H). rewrite T in H. destruct H as (l' & n & ls & ds & Ul' & _ & ML & _).
        replace l with l'; [exact ML|]. apply (utf8_code_fun _ _ _ Ul' Ul CC).
    - intros (ra & rb & A & B & -> & Z & M). rewrite (lookup_exact U K a f ra CA LA) in A. rewrite (lookup_exact U K b f rb CB LB) in B.
      now apply accepts_glue.
  Qed.
End Compose.
