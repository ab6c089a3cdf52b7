(** Which names are below which. *)
From Verif Require Import Base PunyBase Uenv DataTypes SpecUtf8 SpecPuny SpecTables SpecLabel SpecNfc SpecLookup SpecToAscii SpecUnicode SpecBelow
  Lookup MapProofs NfcProofs LookupProofs LookupIdem LookupTop Utf8Proofs ToAsciiProofs Api DecodeProofs RoundTrip Compose SameName LookupTr46 Again.

Lemma below_labels : forall ls ks a b, dotted ls a -> dotted ks b -> (below a b <-> exists js, js <> [] /\ ls = js ++ ks).
Proof.
  intros ls ks a b A B. split.
  - intros (p & ->). apply dotted_cut in A. destruct A as (la & lb & -> & P & Q). exists la. split; [exact (proj1 P)|]. now rewrite (dotted_fun _ _ _ Q B).
  - intros (js & N & ->). exists (join js). destruct A as (_ & _ & ->). rewrite join_app; [|exact N | exact (proj1 B)]. f_equal. f_equal. symmetry. exact (proj2 (proj2 B)).
Qed.
Lemma app_tail : forall (A : Type) (a b c d : list A), length b = length d -> a ++ b = c ++ d -> a = c /\ b = d.
Proof.
  intros A a. induction a as [|x a IH]; intros b c d L E.
  - destruct c as [|y c]; [auto|]. exfalso. cbn [app] in E. apply (f_equal (@length A)) in E. cbn [length] in E. rewrite app_length in E. lia.
  - destruct c as [|y c]; cbn [app] in E.
    + exfalso. apply (f_equal (@length A)) in E. cbn [length] in E. rewrite app_length in E. lia.
    + injection E as <- E. destruct (IH b c d L E) as (-> & ->). auto.
Qed.

Section Two.
  Variables U V : uenv.
  Hypotheses (KU : nfc_ok U) (KV : nfc_ok V).

  Lemma below_forms : forall a b f g r s n m, c_string a -> zlen a < two64 -> c_string b -> zlen b < two64 ->
    opt_no_roundtrip f = false -> opt_no_roundtrip g = false -> lookup_u8 U a f = Ok r -> lookup_u8 V b g = Ok s ->
    (opt_no_tr46 f = true -> no_upper_ace r) -> (opt_no_tr46 g = true -> no_upper_ace s) ->
    unicode_name r n -> unicode_name s m -> (below r s <-> below n m).
  Proof.
    intros a b f g r s n m C1 L1 C2 L2 R1 R2 H1 H2 N1 N2 (ds & ps & D1 & F1 & E1 & _) (es & qs & D2 & F2 & E2 & _).
    destruct (result_labels U a f r) as (ds' & D1' & G1); auto. destruct (result_labels V b g s) as (es' & D2' & G2); auto.
    assert (ds' = ds) as -> by exact (dotted_fun _ _ _ D1' D1). assert (es' = es) as -> by exact (dotted_fun _ _ _ D2' D2).
    rewrite (below_labels ds es r s D1 D2), (below_labels ps qs n m E1 E2).
    assert (FB : Forall (fun d => bytes d /\ zlen d < two64) es).
    { destruct (lookup_shape V b g s KV C2 L2 H2) as (A & _ & ZZ). assert (ZZ' : zlen s <= 254) by lia. clear ZZ. rename ZZ' into ZZ. destruct D2 as (_ & _ & ->). clear - A ZZ. induction es as [|d es IH]; [constructor|].
      destruct es as [|e es].
      - constructor; [|constructor]. cbn [join] in A, ZZ. split; [eapply Forall_impl; [|exact A]; cbv beta; lia|unfold two64; lia].
      - rewrite join_cons in A, ZZ. rewrite zlen_app, zlen_cons in ZZ. apply Forall_app in A. destruct A as (A & B). inversion B as [|? ? _ B']; subst.
        assert (0 <= zlen d) by (unfold zlen; lia). assert (0 <= zlen (join (e :: es))) by (unfold zlen; lia). constructor.
        + split; [eapply Forall_impl; [|exact A]; cbv beta; lia|unfold two64; lia].
        + apply IH; [lia|exact B']. }
    split.
    - intros (js & N & ->). apply Forall2_app_inv_l in F1. destruct F1 as (p1 & p2 & X1 & X2 & ->). exists p1. split; [intros ->; inversion X1; subst; now apply N|].
      f_equal. clear - X2 F2 FB. revert qs F2. induction X2 as [|d p es ps H X2 IH]; intros qs F2; inversion F2 as [|? q ? qs' H' F2']; subst; [reflexivity|].
      inversion FB as [|? ? (B1 & B2) FB']; subst. f_equal; [exact (unicode_of_fun d p q B1 B2 H H') | now apply IH].
    - intros (js & N & ->). apply Forall2_app_inv_r in F1. destruct F1 as (d1 & d2 & X1 & X2 & ->). exists d1. split; [intros ->; inversion X1; subst; now apply N|].
      f_equal. apply Forall_app in G1. destruct G1 as (_ & G1). clear - X2 F2 G1 G2. revert es F2 G2.
      induction X2 as [|d p ds ps H X2 IH]; intros es F2 G2; inversion F2 as [|e q es' qs' H' F2']; subst; [reflexivity|].
      inversion G1 as [|? ? (Y1 & g1 & s1 & Z1) G1']; subst. inversion G2 as [|? ? (Y2 & g2 & s2 & Z2) G2']; subst. f_equal; [|now apply IH].
      eapply converted_same; eauto.
  Qed.

  Lemma below_names : forall a b f g r s, c_string a -> zlen a < two64 -> c_string b -> zlen b < two64 ->
    opt_no_roundtrip f = false -> opt_no_roundtrip g = false -> opt_no_tr46 f = false -> opt_no_tr46 g = false ->
    lookup_u8 U a f = Ok r -> lookup_u8 V b g = Ok s ->
    (below r s <-> exists o q n m, tr46_prepared U f a o /\ tr46_prepared V g b q /\ unicode_name o n /\ unicode_name q m /\ below n m).
  Proof.
    intros a b f g r s C1 L1 C2 L2 R1 R2 T1 T2 H1 H2.
    assert (X : forall W w h x, nfc_ok W -> c_string w -> zlen w < two64 -> opt_no_roundtrip h = false -> opt_no_tr46 h = false -> lookup_u8 W w h = Ok x ->
      exists n, unicode_name x n).
    { intros W w h x KW C L R T H. destruct (unicode_of_result W w h x) as (n & E & _); auto; [congruence|]. exists n.
      pose proof (lookup_shape W w h x KW C L H) as (A & _ & ZZ). apply unicode_iff; auto; [eapply Forall_impl; [|exact A]; cbv beta; lia|unfold two64; lia]. }
    assert (Y : forall n m, unicode_name r n -> unicode_name s m -> (below r s <-> below n m)).
    { intros n m Hn Hm. apply (below_forms a b f g r s n m); auto; congruence. }
    split.
    - intros B. destruct (X U a f r KU C1 L1 R1 T1 H1) as (n & Hn). destruct (X V b g s KV C2 L2 R2 T2 H2) as (m & Hm).
      pose proof (proj1 (Y n m Hn Hm) B) as B'. apply (prepared_form U a f r n) in Hn; auto. apply (prepared_form V b g s m) in Hm; auto.
      destruct Hn as (o & O1 & O2). destruct Hm as (q & Q1 & Q2). exists o, q, n, m. auto.
    - intros (o & q & n & m & O1 & Q1 & O2 & Q2 & B). apply (Y n m); auto.
      + apply (prepared_form U a f r n); eauto.
      + apply (prepared_form V b g s m); eauto.
  Qed.
End Two.

Section Parents.
  Variable U : uenv.
  Hypothesis K : nfc_ok U.

  (** Cutting a result that is its own result. *)
  Lemma parents : forall src f r, c_string src -> zlen src < two64 -> opt_no_roundtrip f = false -> lookup_u8 U src f = Ok r ->
    forall s, below r s -> lookup_u8 U s f = Ok s.
  Proof.
    intros src f r C L R H s (p & E).
    pose proof (lookup_idempotent U src f r K C L R H) as HI. destruct (lookup_shape U src f r K C L H) as (A & _ & LEN).
    assert (Cr : c_string r) by (eapply Forall_impl; [|exact A]; cbv beta; lia). assert (Lr : zlen r < two64) by (unfold two64; lia).
    apply (lookup_exact U K r f r Cr Lr) in HI. subst r. apply accepts_cut in HI; [|exact K]. destruct HI as (ra & rb & HA & HB & E).
    assert (ZL : zlen (p ++ 46 :: s) = zlen p + 1 + zlen s) by (rewrite zlen_app, zlen_cons; lia). assert (0 <= zlen p) by (unfold zlen; lia). assert (0 <= zlen s) by (unfold zlen; lia).
    assert (Cs : c_string s) by (apply Forall_app in Cr; destruct Cr as (_ & X); now inversion X).
    apply (lookup_exact U K s f s Cs); [unfold two64; lia|].
    enough (rb = s) as <- by exact HB.
    assert (W : exists la lb da db, dotted la p /\ dotted lb s /\ dotted da ra /\ dotted db rb /\ length db = length lb).
    { destruct HA as (_ & HA), HB as (_ & HB). destruct (opt_no_tr46 f) eqn:T.
      - destruct HA as (la & da & A1 & _ & A3 & _), HB as (lb & db & B1 & B2 & B3 & _). exists la, lb, da, db. repeat (split; [assumption|]).
        clear - B2. induction B2; cbn [length]; congruence.
      - destruct HA as (_ & _ & _ & da & _ & _ & _ & _ & _ & _ & A3 & _), HB as (l & n & lb & db & B1 & _ & _ & B4 & B5 & B6 & B7 & _).
        pose proof (result_chars U K f R T src _ C L H) as RC. apply Forall_app in RC. destruct RC as (_ & RC). inversion RC as [|? ? _ RC']; subst. clear RC.
        assert (As : Forall (fun c => 0 <= c < 128) s) by (eapply Forall_impl; [|exact RC']; cbv beta; lia).
        assert (l = s) as -> by (eapply utf8_ascii_eq; [exact B1|]; eapply Forall_impl; [|exact As]; cbv beta; lia).
        assert (FX : Forall (fixed (opt_transitional f) (opt_std3 f)) s).
        { apply Forall_forall. intros c I. rewrite Forall_forall in RC'. destruct (RC' c I) as (Q & X). apply (status_fixed (opt_transitional f) (opt_transitional f)); [lia|].
          destruct X as [X|X]; [now left|]. right. right. split; [now rewrite (proj1 X) | exact (proj2 X)]. }
        destruct (fixed_map _ _ _ FX) as (MF & _). rewrite MF, (nfc_ascii U K s As) in B4. injection B4 as <-.
        exists (split_dots p), lb, da, db. split; [apply dotted_exists|]. repeat (split; [assumption|]). clear - B6. induction B6; cbn [length]; congruence. }
    destruct W as (la & lb & da & db & W1 & W2 & W3 & W4 & W5).
    pose proof (dotted_glue la lb p s W1 W2) as X. rewrite E in X. pose proof (dotted_fun _ _ _ X (dotted_glue da db ra rb W3 W4)) as Y.
    destruct (app_tail _ _ _ _ _ (eq_sym W5) Y) as (_ & ->). destruct W2 as (_ & _ & ->), W4 as (_ & _ & ->). reflexivity.
  Qed.
End Parents.

Lemma sources : forall U a b f r s, nfc_ok U -> c_string a -> zlen a < two64 -> below a b -> lookup_u8 U a f = Ok r -> lookup_u8 U b f = Ok s -> below r s.
Proof.
  intros U a b f r s K C L (p & ->) H1 H2. apply Forall_app in C. destruct C as (C1 & C2). inversion C2 as [|? ? _ C3]; subst.
  apply (lookup_compose U K p b f r C1 C3 L) in H1. destruct H1 as (ra & rb & _ & B & -> & _). exists ra. congruence.
Qed.
