(** How the results under different flags relate. *)
From Verif Require Import Base PunyBase Uenv DataTypes SpecUtf8 SpecPuny SpecTables SpecBidi SpecContext SpecLabel SpecNfc
  SpecLookup SpecToAscii Puny PunyExact Lookup MapProofs LookupTr46 LookupIdem LookupTop ToAsciiProofs.

Lemma join_in : forall ls s c, In s ls -> In c s -> In c (join ls).
Proof.
  induction ls as [|x ls IH]; intros s c [] Hc.
  - subst x. destruct ls; [exact Hc|]. rewrite LookupProofs.join_cons. apply in_or_app. now left.
  - destruct ls as [|y ls]; [destruct H|]. rewrite LookupProofs.join_cons. apply in_or_app. right. right. eapply IH; eauto.
Qed.
Lemma sbc_refl : forall a, same_but_case a a.
Proof. intros a. apply sbc_lower_map. reflexivity. Qed.
Lemma sbc_join : forall ds ds', Forall2 same_but_case ds ds' -> same_but_case (join ds) (join ds').
Proof.
  induction 1 as [|a b ds ds' H F IH]; [constructor|]. inversion F as [|a2 b2 r r' H2 F2]; subst; [exact H|].
  rewrite !LookupProofs.join_cons. apply sbc_lower_map. rewrite !map_app. cbn [map]. apply sbc_lower_map in H. apply sbc_lower_map in IH. rewrite H, IH. reflexivity.
Qed.
Lemma sbc_zlen : forall a b, same_but_case a b -> zlen a = zlen b.
Proof. intros a b H. apply sbc_lower_map in H. rewrite <- (zlen_map _ _ lower a), H, zlen_map. reflexivity. Qed.
Lemma sbc_last : forall ds ds', Forall2 same_but_case ds ds' -> last ds [] = [] -> last ds' [] = [].
Proof.
  induction 1 as [|a b ds ds' H F IH]; [auto|]. intros L. destruct F as [|a2 b2 r r' H2 F2].
  - cbn [last] in *. subst a. inversion H. reflexivity.
  - cbn [last] in *. apply IH. exact L.
Qed.
Lemma lower_dot : forall c, lower c = 46 -> c = 46.
Proof. intros c. unfold lower. destruct ((65 <=? c) && (c <=? 90)) eqn:E; zb; lia. Qed.
Lemma sbc_dot : forall a b, same_but_case a b -> ~ In 46 a -> ~ In 46 b.
Proof.
  induction 1 as [|x y a b E H IH]; intros N; [exact N|]. intros [X|X].
  - apply N. left. subst y. apply lower_dot. exact E.
  - apply IH; auto. intros Y. apply N. now right.
Qed.
Lemma sbc_dotted : forall ds ds' r, Forall2 same_but_case ds ds' -> dotted ds r -> dotted ds' (join ds').
Proof.
  intros ds ds' r F (A & B & _). split; [|split; [|reflexivity]].
  - destruct F; [congruence|discriminate].
  - clear A. induction F as [|a b ds ds' H F IH]; constructor.
    + eapply sbc_dot; [exact H|]. now inversion B.
    + apply IH. now inversion B.
Qed.
Lemma Forall2_exists : forall (A B : Type) (P Q : A -> B -> Prop) (R : B -> B -> Prop) la lb, Forall2 P la lb ->
  (forall a b, In a la -> P a b -> exists b', Q a b' /\ R b b') -> exists lb', Forall2 Q la lb' /\ Forall2 R lb lb'.
Proof.
  induction 1 as [|a b la lb H F IH]; intros G.
  - exists []. split; constructor.
  - destruct IH as (lb' & I1 & I2); [intros a' b' Ia; apply G; now right|]. destruct (G a b (or_introl eq_refl) H) as (b' & Q1 & R1).
    exists (b' :: lb'). split; constructor; auto.
Qed.

Definition agree_but_roundtrip (f g : Z) : Prop :=
  opt_nfc f = opt_nfc g /\ opt_transitional f = opt_transitional g /\ opt_std3 f = opt_std3 g /\ opt_no_tr46 f = opt_no_tr46 g.

Lemma no_roundtrip_more : forall U src f g r, nfc_ok U -> c_string src -> zlen src < two64 -> ~ bad_flags g ->
  opt_nfc f = opt_nfc g -> opt_transitional f = opt_transitional g -> opt_std3 f = opt_std3 g -> opt_no_tr46 f = opt_no_tr46 g ->
  opt_no_roundtrip f = false -> opt_no_roundtrip g = true ->
  lookup_u8 U src f = Ok r -> exists r', lookup_u8 U src g = Ok r' /\ same_but_case r r'.
Proof.
  intros U src f g r K C L B E1 E2 E3 E4 R1 R2 H. apply lookup_exact in H; auto. destruct H as (B1 & H). rewrite E4 in H.
  assert (FIN : forall ds ds', Forall2 same_but_case ds ds' -> dotted ds r -> name_fits ds r -> dotted ds' (join ds') /\ name_fits ds' (join ds') /\ same_but_case r (join ds')).
  { intros ds ds' F D Z. split; [eapply sbc_dotted; eauto|]. destruct D as (_ & _ & ->). pose proof (sbc_join _ _ F) as J. split; [|exact J].
    apply sbc_zlen in J. unfold name_fits in *. rewrite <- J. destruct Z as [Z|(Z1 & Z2)]; [auto|]. right. split; [exact Z1|]. eapply sbc_last; eauto. }
  destruct (opt_no_tr46 g) eqn:N.
  - destruct H as (ls & ds & D1 & F & D2 & Z).
    destruct (Forall2_exists _ _ (raw_label U f) (raw_label U g) same_but_case ls ds F) as (ds' & F' & S).
    { intros b d _ X. destruct X as [A X LE|e p0 p e' E X D Sc Nf V RE LE SC|p0 p e A Hu Nf V NA RE LE].
      - exists b. split; [|apply sbc_refl]. apply raw_ascii; auto; congruence.
      - exists b. assert (SA : same_but_case b (ace e')) by (rewrite E; now apply sbc_ace). split; [|now apply LookupMap.sbc_sym].
        apply raw_ascii; [|congruence|].
        + rewrite E. apply ace_ascii. destruct D as (D & _). eapply Forall_impl; [|exact D]. unfold ldh_or_underscore. cbv beta. lia.
        + apply sbc_zlen in SA. rewrite SA, zlen_ace. lia.
      - exists (ace e). split; [|apply sbc_refl]. apply (raw_ulabel U g b p0 p e); auto; congruence. }
    destruct (FIN ds ds' S D2 Z) as (D' & Z' & SR). exists (join ds'). split; [|exact SR]. apply lookup_exact; auto. split; [exact B|]. rewrite N.
    exists ls, ds'. auto.
  - destruct H as (l & n & ls & ds & H1 & H2 & H3 & H4 & D1 & F & D2 & Z). rewrite E2, E3 in *.
    destruct (Forall2_exists _ _ (tr46_label U f) (tr46_label U g) same_but_case ls ds F) as (ds' & F' & S).
    { intros b d _ X. destruct X as [A X V LE|e p E LE D V X CE T|e p E LE D V X|e A X V T AL RE LE]; rewrite ?E2, ?E3 in *.
      - exists b. split; [|apply sbc_refl]. now apply t46_ascii.
      - exists b. split; [|rewrite E; apply sbc_ace, sbc_lower_map; apply map_lower_lower]. apply (t46_verbatim U g b e p); auto.
      - congruence.
      - exists (ace e). split; [|apply sbc_refl]. apply t46_ulabel; auto. }
    destruct (FIN ds ds' S D2 Z) as (D' & Z' & SR). exists (join ds'). split; [|exact SR]. apply lookup_exact; auto. split; [exact B|]. rewrite N.
    exists l, n, ls, ds'. auto 12.
Qed.

Lemma map_no_deviation : forall std3 l, Forall (fun c => status_of c <> Deviation) l -> uts46_map true std3 l = uts46_map false std3 l.
Proof.
  intros std3 l. induction 1 as [|c l H F IH]; [reflexivity|]. unfold uts46_map in *. cbn [flat_map]. rewrite IH. f_equal.
  unfold map1. destruct (status_of c); congruence.
Qed.
Lemma map_no_std3 : forall tr l, Forall (fun c => ~ is_std3 c) l -> uts46_map tr false l = uts46_map tr true l.
Proof.
  intros tr l. induction 1 as [|c l H F IH]; [reflexivity|]. unfold uts46_map in *. cbn [flat_map]. rewrite IH. f_equal.
  unfold map1. unfold is_std3 in H. destruct (status_of c); tauto || reflexivity.
Qed.

Lemma transitional_agrees : forall U src f g r l n, nfc_ok U -> c_string src -> zlen src < two64 -> ~ bad_flags g ->
  opt_no_tr46 f = false -> opt_no_tr46 g = false -> opt_transitional f = false -> opt_transitional g = true ->
  opt_std3 f = opt_std3 g -> opt_no_roundtrip f = opt_no_roundtrip g ->
  utf8 l src -> Forall (fun c => status_of c <> Deviation) l ->
  ue_nfc U (uts46_map false (opt_std3 f) l) = Some n -> Forall (fun c => status_of c <> Deviation) n ->
  lookup_u8 U src f = Ok r -> lookup_u8 U src g = Ok r.
Proof.
  intros U src f g r l n K C L B N1 N2 T1 T2 E1 E2 Hu Dl Hn Dn H. apply lookup_exact in H; auto. destruct H as (B1 & H). rewrite N1 in H.
  destruct H as (l' & n' & ls & ds & H1 & H2 & H3 & H4 & D1 & F & D2 & Z).
  assert (l' = l) as -> by (apply Utf8Proofs.u8_to_u32_complete in H1; apply Utf8Proofs.u8_to_u32_complete in Hu; congruence).
  rewrite T1 in *. rewrite Hn in H4. injection H4 as <-.
  apply lookup_exact; auto. split; [exact B|]. rewrite N2. exists l, n, ls, ds. rewrite T2, <- E1. rewrite map_no_deviation by auto.
  split; [exact H1|]. split; [exact H2|]. split; [exact H3|]. split; [exact Hn|]. split; [exact D1|]. split; [|auto].
  assert (UP : forall s, In s ls -> uts46_valid U false (opt_std3 f) s -> uts46_valid U true (opt_std3 f) s).
  { intros s Is (V1 & V2 & V3 & V4 & V5). refine (conj V1 (conj V2 (conj V3 (conj V4 _)))). unfold ok_status in *. rewrite Forall_forall in *.
    intros c Hc. specialize (V5 c Hc). assert (X : status_of c <> Deviation).
    { apply Dn. destruct D1 as (_ & _ & ->). eapply join_in; eauto. } intuition. }
  eapply Forall2_impl_in; [exact F|]. intros s d Is X. destruct X as [A X V LE|e p E LE D V X CE T|e p E LE D V X|e A X V T AL RE LE].
  - rewrite T1 in V. apply t46_ascii; auto. rewrite T2, <- E1. auto.
  - apply (t46_alabel U g s e p); auto; rewrite <- ?E1; auto; congruence.
  - apply (t46_verbatim U g s e p); auto; rewrite <- ?E1; auto; congruence.
  - rewrite T1 in V. apply t46_ulabel; auto; rewrite ?T2, <- ?E1, <- ?E2; auto; discriminate.
Qed.

Lemma std3_agrees : forall U src f g r l, nfc_ok U -> c_string src -> zlen src < two64 -> ~ bad_flags g ->
  opt_no_tr46 f = false -> opt_no_tr46 g = false -> opt_transitional f = opt_transitional g ->
  opt_std3 f = true -> opt_std3 g = false -> opt_no_roundtrip f = opt_no_roundtrip g ->
  utf8 l src -> Forall (fun c => ~ is_std3 c) l ->
  lookup_u8 U src f = Ok r -> lookup_u8 U src g = Ok r.
Proof.
  intros U src f g r l K C L B N1 N2 E1 S1 S2 E2 Hu Dl H. apply lookup_exact in H; auto. destruct H as (B1 & H). rewrite N1 in H.
  destruct H as (l' & n & ls & ds & H1 & H2 & H3 & H4 & D1 & F & D2 & Z).
  assert (l' = l) as -> by (apply Utf8Proofs.u8_to_u32_complete in H1; apply Utf8Proofs.u8_to_u32_complete in Hu; congruence).
  rewrite S1 in *.
  apply lookup_exact; auto. split; [exact B|]. rewrite N2. exists l, n, ls, ds. rewrite S2, <- E1. rewrite map_no_std3 by auto.
  split; [exact H1|]. split; [exact H2|]. split; [exact H3|]. split; [exact H4|]. split; [exact D1|]. split; [|auto].
  assert (UP : forall tr s, uts46_valid U tr true s -> uts46_valid U tr false s).
  { intros tr s (V1 & V2 & V3 & V4 & V5). refine (conj V1 (conj V2 (conj V3 (conj V4 _)))). unfold ok_status in *. rewrite Forall_forall in *.
    intros c Hc. specialize (V5 c Hc). cbn [negb] in *. intuition discriminate. }
  assert (UI : forall s, idna2008_valid U (negb true) s -> idna2008_valid U (negb false) s).
  { intros s (V1 & V2 & V3 & V4 & V5). refine (conj V1 (conj V2 (conj V3 (conj _ V5)))). unfold ok_disallowed in *. rewrite Forall_forall in *.
    intros c Hc. specialize (V4 c Hc). cbn [negb] in *. intuition discriminate. }
  eapply Forall2_impl_in; [exact F|]. intros s d Is X. destruct X as [A X V LE|e p E LE D V X CE T|e p E LE D V X|e A X V T AL RE LE]; rewrite S1 in *.
  - apply t46_ascii; auto. rewrite S2, <- E1. auto.
  - apply (t46_alabel U g s e p); auto; rewrite ?S2, <- ?E1; auto; congruence.
  - apply (t46_verbatim U g s e p); auto; rewrite ?S2; auto; congruence.
  - apply t46_ulabel; auto; rewrite ?S2, <- ?E1, <- ?E2; auto.
Qed.
