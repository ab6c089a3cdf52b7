(** When transitional processing and the STD3 rules make no difference at all. *)
From Verif Require Import Base PunyBase Uenv DataTypes SpecUtf8 SpecPuny SpecTables SpecLabel SpecNfc SpecLookup SpecToAscii Lookup Utf8 Utf8Proofs MapProofs LookupTr46 LookupIdem LookupTop ToAsciiProofs FlagRel.

Lemma in_name : forall ls n s c, dotted ls n -> In s ls -> In c s -> In c n.
Proof. intros ls n s c (_ & _ & ->) I J. eapply join_in; eauto. Qed.

Lemma transitional_exact : forall U src f g r l n, nfc_ok U -> c_string src -> zlen src < two64 -> ~ bad_flags f -> ~ bad_flags g ->
  opt_no_tr46 f = false -> opt_no_tr46 g = false -> opt_transitional f = false -> opt_transitional g = true ->
  opt_std3 f = opt_std3 g -> opt_no_roundtrip f = opt_no_roundtrip g ->
  utf8 l src -> Forall (fun c => status_of c <> Deviation) l ->
  ue_nfc U (uts46_map false (opt_std3 f) l) = Some n -> Forall (fun c => status_of c <> Deviation) n ->
  (forall ls s p, dotted ls n -> In s ls -> (not_ascii s /\ p = s) \/ (exists e, s = ace e /\ decodes_to e p) -> idna2008_valid U (negb (opt_std3 f)) p) ->
  (lookup_u8 U src f = Ok r <-> lookup_u8 U src g = Ok r).
Proof.
  intros U src f g r l n K C L B1 B N1 N2 T1 T2 E1 E2 Hu Dl Hn Dn W. split; [now apply (transitional_agrees U src f g r l n)|].
  intros H. apply lookup_exact in H; auto. destruct H as (_ & H). rewrite N2 in H.
  destruct H as (l' & n' & ls & ds & H1 & H2 & H3 & H4 & D1 & F & D2 & Z).
  assert (l' = l) as -> by (apply u8_to_u32_complete in H1; apply u8_to_u32_complete in Hu; congruence).
  rewrite T2, <- E1, map_no_deviation in H3, H4 by auto. rewrite Hn in H4. injection H4 as <-.
  apply lookup_exact; auto. split; [exact B1|]. rewrite N1. exists l, n, ls, ds. rewrite T1.
  split; [exact H1|]. split; [exact H2|]. split; [exact H3|]. split; [exact Hn|]. split; [exact D1|]. split; [|auto].
  assert (UP : forall s, uts46_valid U true (opt_std3 f) s -> uts46_valid U false (opt_std3 f) s).
  { intros s (V1 & V2 & V3 & V4 & V5). refine (conj V1 (conj V2 (conj V3 (conj V4 _)))). unfold ok_status in *. rewrite Forall_forall in *.
    intros c Hc. specialize (V5 c Hc). intuition discriminate. }
  eapply Forall2_impl_in; [exact F|]. intros s d Is X. specialize (W ls s). destruct X as [A X V LE|e p E LE D V X CE T|e p E LE D V X|e A X V T AL RE LE].
  - rewrite T2, <- E1 in V. apply t46_ascii; auto. rewrite T1. auto.
  - apply (t46_alabel U f s e p); auto; rewrite ?E1; auto; try congruence. intros _. rewrite <- E1. apply W; auto. right. exists e. auto.
  - apply (t46_verbatim U f s e p); auto; rewrite ?E1; auto; congruence.
  - rewrite T2, <- E1 in V. apply t46_ulabel; auto; rewrite ?T1, ?E2; auto.
Qed.

Lemma std3_exact : forall U src f g r l n, nfc_ok U -> c_string src -> zlen src < two64 -> ~ bad_flags f -> ~ bad_flags g ->
  opt_no_tr46 f = false -> opt_no_tr46 g = false -> opt_transitional f = opt_transitional g ->
  opt_std3 f = true -> opt_std3 g = false -> opt_no_roundtrip f = opt_no_roundtrip g ->
  utf8 l src -> Forall (fun c => ~ is_std3 c) l ->
  ue_nfc U (uts46_map (opt_transitional f) true l) = Some n -> Forall (fun c => ~ is_std3 c) n ->
  (forall ls e p, dotted ls n -> In (ace e) ls -> decodes_to e p -> Forall (fun c => ~ is_std3 c) p) ->
  (lookup_u8 U src f = Ok r <-> lookup_u8 U src g = Ok r).
Proof.
  intros U src f g r l n K C L B1 B N1 N2 E1 S1 S2 E2 Hu Dl Hn Dn W. split; [now apply (std3_agrees U src f g r l)|].
  intros H. apply lookup_exact in H; auto. destruct H as (_ & H). rewrite N2 in H.
  destruct H as (l' & n' & ls & ds & H1 & H2 & H3 & H4 & D1 & F & D2 & Z).
  assert (l' = l) as -> by (apply u8_to_u32_complete in H1; apply u8_to_u32_complete in Hu; congruence).
  rewrite S2, <- E1, map_no_std3 in H3, H4 by auto. rewrite Hn in H4. injection H4 as <-.
  apply lookup_exact; auto. split; [exact B1|]. rewrite N1. exists l, n, ls, ds. rewrite S1.
  split; [exact H1|]. split; [exact H2|]. split; [exact H3|]. split; [exact Hn|]. split; [exact D1|]. split; [|auto].
  assert (UP : forall tr s, Forall (fun c => ~ is_std3 c) s -> uts46_valid U tr false s -> uts46_valid U tr true s).
  { intros tr s N (V1 & V2 & V3 & V4 & V5). refine (conj V1 (conj V2 (conj V3 (conj V4 _)))). unfold ok_status in *. rewrite Forall_forall in *.
    intros c Hc. specialize (V5 c Hc). specialize (N c Hc). cbv beta in *. tauto. }
  assert (UI : forall s, Forall (fun c => ~ is_std3 c) s -> idna2008_valid U (negb false) s -> idna2008_valid U (negb true) s).
  { intros s N (V1 & V2 & V3 & V4 & V5). refine (conj V1 (conj V2 (conj V3 (conj _ V5)))). unfold ok_disallowed in *. rewrite Forall_forall in *.
    intros c Hc. specialize (V4 c Hc). specialize (N c Hc). cbv beta in *. tauto. }
  assert (NS : forall s, In s ls -> Forall (fun c => ~ is_std3 c) s).
  { intros s I. rewrite Forall_forall in *. intros c J. apply Dn. eapply in_name; eauto. }
  eapply Forall2_impl_in; [exact F|]. intros s d Is X. destruct X as [A X V LE|e p E LE D V X CE T|e p E LE D V X|e A X V T AL RE LE]; rewrite S2 in *.
  - apply t46_ascii; auto. rewrite S1, E1. auto.
  - subst s. specialize (W ls e p D1 Is D). apply (t46_alabel U f (ace e) e p); auto; rewrite ?S1, ?E1; auto; congruence.
  - subst s. specialize (W ls e p D1 Is D). apply (t46_verbatim U f (ace e) e p); auto; rewrite ?S1; auto; congruence.
  - apply t46_ulabel; auto; rewrite ?S1, ?E1, ?E2; auto.
Qed.
