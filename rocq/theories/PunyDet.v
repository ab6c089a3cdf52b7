(** RFC 3492 as stated in SpecPuny.v decodes a string in one way at most. *)
From Verif Require Import Base PunyBase SpecPuny PunyComplete.

Lemma digit_fun : forall c d1 d2, rfc_digit c d1 -> rfc_digit c d2 -> d1 = d2.
Proof.
  intros c d1 d2 H1. remember c as c' eqn:E. intros H2. revert E. inversion H1; inversion H2; intros; lia.
Qed.
Lemma app_eq_len : forall (a b c d : list Z), a ++ b = c ++ d -> length a = length c -> a = c /\ b = d.
Proof.
  induction a as [|x a IH]; intros b [|y c] d E L; try discriminate; [auto|]. cbn [app length] in *. injection E as <- E. injection L as L.
  destruct (IH b c d E L) as (-> & ->). auto.
Qed.
Lemma varint_fun : forall bias k s1 v1, rfc_varint bias k s1 v1 -> forall s2 v2 r1 r2, rfc_varint bias k s2 v2 -> s1 ++ r1 = s2 ++ r2 -> s1 = s2 /\ v1 = v2 /\ r1 = r2.
Proof.
  induction 1 as [k c d D T|k c d s v D T H IH]; intros s2 v2 r1 r2 H2 E; destruct H2 as [k c2 d2 D2 T2|k c2 d2 s2 v2 D2 T2 H2]; cbn [app] in E; injection E as <- E;
    pose proof (digit_fun _ _ _ D D2) as <-.
  - auto.
  - lia.
  - lia.
  - destruct (IH _ _ _ _ H2 E) as (<- & <- & <-). auto.
Qed.
Lemma steps_fun : forall o n i bias s L1, rfc_steps o n i bias s L1 -> forall L2, rfc_steps o n i bias s L2 -> L1 = L2.
Proof.
  assert (NV : forall bias k v, ~ rfc_varint bias k [] v) by (intros bias k v H; inversion H).
  induction 1 as [o n i bias|o n i bias s rest q bias' a b L n' i' V N I O A AD H IH]; intros L2 H2.
  - inversion H2 as [|? ? ? ? s2 rest2 q2 bias2 a2 b2 L2' n2 i2 V2 N2 I2 O2 A2 AD2 H2' E1 E2 E3 E4 E5]; subst; [reflexivity|].
    apply app_eq_nil in E5. destruct E5 as (-> & _). exfalso. exact (NV _ _ _ V2).
  - remember (s ++ rest) as t eqn:ET. destruct H2 as [o n i bias|o n i bias s2 rest2 q2 bias2 a2 b2 L2 n2 i2 V2 N2 I2 O2 A2 AD2 H2].
    + symmetry in ET. apply app_eq_nil in ET. destruct ET as (-> & _). exfalso. exact (NV _ _ _ V).
    + destruct (varint_fun _ _ _ _ V2 _ _ _ _ V ET) as (-> & -> & ->). assert (bias2 = bias') as -> by (eapply rfc_adapt_loop_fun; [exact AD2|exact AD]).
      assert (i2 = i') by congruence. assert (n2 = n') by congruence. subst i2 n2.
      assert (AB : a = a2 /\ b = b2). { rewrite O in O2. apply app_eq_len; [exact O2|]. unfold zlen in *. lia. }
      destruct AB as (<- & <-). subst n'. rewrite I, <- A in *. apply IH. rewrite ?I in H2. exact H2.
Qed.
Lemma last_hyphen : forall a b (s t : list Z), ~ In 45 s -> ~ In 45 t -> a ++ 45 :: s = b ++ 45 :: t -> a = b /\ s = t.
Proof.
  induction a as [|x a IH]; intros [|y b] s t S T E; cbn [app] in E.
  - injection E as ->. auto.
  - exfalso. injection E as _ ->. apply S. apply in_or_app; right; now left.
  - exfalso. injection E as _ <-. apply T. apply in_or_app; right; now left.
  - injection E as <- E. destruct (IH b s t S T E) as (-> & ->). auto.
Qed.
Lemma rfc_decodes_det : forall s L1 L2, rfc_decodes s L1 -> rfc_decodes s L2 -> L1 = L2.
Proof.
  intros s L1 L2 H1 H2. destruct H1 as [s L1 N1 S1|b1 s1 L1 B1 N1 S1].
  - inversion H2 as [? ? N2 S2|b2 s2 ? B2 N2 S2 E]; subst; [exact (steps_fun _ _ _ _ _ _ S1 _ S2)|].
    exfalso. apply N1. apply in_or_app; right; now left.
  - remember (b1 ++ 45 :: s1) as t eqn:E. destruct H2 as [t L2 N2 S2|b2 s2 L2 B2 N2 S2].
    + exfalso. apply N2. rewrite E. apply in_or_app; right; now left.
    + destruct (last_hyphen _ _ _ _ N2 N1 E) as (-> & ->). exact (steps_fun _ _ _ _ _ _ S1 _ S2).
Qed.
