(** Lemmas about the fallback. *)
From Verif Require Import Base PunyBase Uenv DataTypes SpecUtf8 SpecPuny SpecTables SpecBidi SpecContext SpecLabel SpecNfc
  SpecLookup SpecToAscii SpecRefusal Puny PunyDet Lookup Utf8 Utf8Proofs MapProofs LookupProofs LookupTr46 LookupIdem LookupTop ToAsciiProofs FlagRel RefusalExamples Compose Api
  Fallback SpecFallback.

Notation NT := IDN2_NONTRANSITIONAL.
Notation TR := IDN2_TRANSITIONAL.

Lemma nt_flags : opt_no_tr46 NT = false /\ opt_transitional NT = false /\ opt_std3 NT = false /\ opt_no_roundtrip NT = false /\ ~ bad_flags NT.
Proof. repeat split; try reflexivity. unfold bad_flags. cbn. intuition discriminate. Qed.
Lemma tr_flags : opt_no_tr46 TR = false /\ opt_transitional TR = true /\ opt_std3 TR = false /\ opt_no_roundtrip TR = false /\ ~ bad_flags TR.
Proof. repeat split; try reflexivity. unfold bad_flags. cbn. intuition discriminate. Qed.

Lemma decodes_det : forall e p q, decodes_to e p -> decodes_to e q -> p = q.
Proof. intros e p q (_ & A & _) (_ & B & _). eapply rfc_decodes_det; eauto. Qed.

Lemma up : forall U s, uts46_valid U true false s -> uts46_valid U false false s.
Proof.
  intros U s (V1 & V2 & V3 & V4 & V5). refine (conj V1 (conj V2 (conj V3 (conj V4 _)))). unfold ok_status in *. rewrite Forall_forall in *.
  intros c Hc. specialize (V5 c Hc). intuition discriminate.
Qed.

(** The outcome of both lookups. *)
Definition fallback (U : uenv) (src : list Z) : out (list Z) :=
  match lookup_u8 U src NT with
  | Fail rc => if rc =? IDN2_DISALLOWED then lookup_u8 U src TR else Fail rc
  | m => m
  end.
Lemma fallback_api : forall U src o, to_ascii_fallback U (Some src) o = deliver o (fallback U src).
Proof.
  intros U src o. unfold to_ascii_fallback, to_ascii_8z, idn2_lookup_u8, fallback.
  destruct (lookup_u8 U src NT) as [r|rc| |]; cbn [deliver bind]; try reflexivity. destruct (rc =? IDN2_DISALLOWED); reflexivity.
Qed.

Lemma passes_first : forall U s p, passes46 U NT s -> unicode_form NT s p -> uts46_valid U false false p.
Proof.
  intros U s p H F. destruct F as [e p E R D|N].
  - destruct H as [(X & _)|(e' & p' & E' & D' & V)].
    + exfalso. apply X. rewrite E. exists e. reflexivity.
    + rewrite E in E'. injection E' as <-. rewrite (decodes_det e p p' D D'). exact V.
  - destruct H as [(X & V)|(e' & p' & E' & D' & V)]; [exact V|]. exfalso. rewrite E' in N. destruct D' as (D' & _). unfold not_ascii, ace in N.
    apply Exists_exists in N. destruct N as (c & I & G). rewrite Forall_forall in D'. cbn [In] in I.
    destruct I as [I|[I|[I|[I|I] ] ] ]; try lia. specialize (D' c I). unfold ldh_or_underscore in D'. lia.
Qed.

Lemma wrong_disallowed : forall U s p, passes46 U NT s -> unicode_form NT s p -> ~ ok_disallowed p true ->
  first_wrong (idna2008_tests U true p) IDN2_DISALLOWED.
Proof.
  intros U s p H F W. destruct (passes_first U s p H F) as (V1 & V2 & V3 & V4 & V5).
  unfold idna2008_tests. apply fw_later; [unfold ok_normalises, ok_nfc in *; congruence|]. apply fw_later; [exact V1|]. apply fw_later; [exact V2|]. apply fw_later; [exact V4|].
  apply fw_here. exact W.
Qed.
Lemma disallowed_wrong : forall U p, first_wrong (idna2008_tests U true p) IDN2_DISALLOWED -> ~ ok_disallowed p true.
Proof.
  intros U p H. unfold idna2008_tests in H.
  repeat match goal with H : first_wrong _ _ |- _ => inversion H; clear H; subst; auto; try discriminate end.
Qed.

Lemma code46 : forall U tr p rc, first_wrong (uts46_tests U tr false p) rc -> rc <> IDN2_DISALLOWED.
Proof.
  intros U tr p rc H E. subst rc. unfold uts46_tests in H. destruct tr;
  repeat match goal with H : first_wrong _ _ |- _ => inversion H; clear H; subst; auto; try discriminate end.
Qed.
Lemma undecodable_code : forall e rc, undecodable e rc -> rc <> IDN2_DISALLOWED.
Proof.
  assert (G : forall mo o n i b s rc, SpecPunyErr.rfc_fails mo o n i b s rc -> rc <> IDN2_DISALLOWED) by (induction 1; auto; discriminate).
  intros e rc H. destruct H; try discriminate; eapply G; eauto.
Qed.
Lemma checks_code : forall U ls rc, checks_refuse U NT ls rc -> rc <> IDN2_DISALLOWED.
Proof.
  intros U ls rc H. destruct H as [a e b E D W|a s b E D W P].
  - eapply undecodable_code; eauto.
  - destruct W as [X W|e p Es D' W]; eapply code46; exact W.
Qed.

Lemma refuses_iff : forall U src, (forall l, utf8 l src -> ~ Exists (fun c => status_of c = Disallowed) l) ->
  (refuses U NT src IDN2_DISALLOWED <-> second_chance U src).
Proof.
  intros U src ND. destruct nt_flags as (N & T & S & R & B). split.
  - intros H. inversion H as [X|ls rc B' N' D X|B' N' X|l B' N' Hu X|l B' N' Hu X LE|l B' N' Hu X LE E|l n ls rc B' N' Hu X LE E D C|l n ls rc B' N' Hu X LE E D P C]; subst; try congruence.
    + exfalso. apply (ND l); auto.
    + exfalso. eapply checks_code; eauto.
    + rewrite T, S in *. inversion C as [a s b ds rc EQ F Z W|]; subst. exists l, n, a, s, b, ds.
      inversion W as [| p rc Hf Tf FW | p rc Hf V (TL & [X'|(X' & _)]) | |]; subst; try discriminate.
      exists p. repeat (split; [assumption|]). rewrite S in FW. eapply disallowed_wrong; exact FW.
  - intros (l & n & a & s & b & ds & p & Hu & LE & E & D & P & F & Z & Hf & W).
    apply (ref_labels U NT src l n (a ++ s :: b)); rewrite ?T, ?S; auto.
    apply (lr_label _ _ _ a s b ds); auto. apply (cv_test U NT s p); auto. rewrite S. apply (wrong_disallowed U s); auto.
    rewrite Forall_forall in P. apply P. apply in_or_app. right. now left.
Qed.

Section Fallback.
  Variable U : uenv.
  Hypothesis K : nfc_ok U.

  Lemma fallback_exact : forall src r, c_string src -> zlen src < two64 -> (fallback U src = Ok r <-> fallback_accepts U src r).
  Proof.
    intros src r C L. unfold fallback, fallback_accepts. rewrite <- !(lookup_exact U K) by auto.
    destruct (lookup_u8 U src NT) as [x|rc| |] eqn:E; cbv beta iota.
    - split; [intros H; left; exact H|]. intros [H|(H & H2)]; [exact H|]. exfalso.
      assert (ND : forall l, utf8 l src -> ~ Exists (fun c => status_of c = Disallowed) l).
      { intros l Hu. apply lookup_exact in H2; auto. destruct H2 as (_ & H2). cbn in H2. destruct H2 as (l' & n & ls & ds & Hu' & G & _).
        apply u8_to_u32_complete in Hu. apply u8_to_u32_complete in Hu'. congruence. }
      apply refuses_iff in H; auto. apply refusal_exact in H; auto. congruence.
    - destruct (Z.eqb_spec rc IDN2_DISALLOWED) as [X|X].
      + subst rc. split; [|intros [H|(_ & H)]; [discriminate|exact H] ]. intros H. right. split; [|exact H].
        apply refuses_iff; [|apply refusal_explained; auto].
        intros l Hu. apply lookup_exact in H; auto. destruct H as (_ & H). cbn in H. destruct H as (l' & n & ls & ds & Hu' & G & _).
        apply u8_to_u32_complete in Hu. apply u8_to_u32_complete in Hu'. congruence.
      + split; [discriminate|]. intros [H|(H & H2)]; [discriminate|]. exfalso. apply X.
        assert (ND : forall l, utf8 l src -> ~ Exists (fun c => status_of c = Disallowed) l).
        { intros l Hu. apply lookup_exact in H2; auto. destruct H2 as (_ & H2). cbn in H2. destruct H2 as (l' & n & ls & ds & Hu' & G & _).
          apply u8_to_u32_complete in Hu. apply u8_to_u32_complete in Hu'. congruence. }
        apply refuses_iff in H; auto. apply refusal_exact in H; auto. congruence.
    - pose proof (lookup_safe U src NT K C L) as SF. rewrite E in SF. destruct SF.
    - pose proof (lookup_safe U src NT K C L) as SF. rewrite E in SF. destruct SF.
  Qed.
  Lemma fallback_refusal : forall src rc, c_string src -> zlen src < two64 -> (fallback U src = Fail rc <-> fallback_refuses U src rc).
  Proof.
    intros src rc C L. unfold fallback, fallback_refuses. rewrite <- !refusal_exact by auto.
    pose proof (lookup_safe U src NT K C L) as SF.
    destruct (lookup_u8 U src NT) as [x|c| |] eqn:E; cbv beta iota; try destruct SF.
    - split; [discriminate|]. intros [(H & _)|(H & _)]; discriminate.
    - destruct (Z.eqb_spec c IDN2_DISALLOWED) as [X|X].
      + subst c. split; [right; auto|]. intros [(H & X)|(_ & H)]; [congruence|exact H].
      + split; [intros H; left; split; congruence|]. intros [(H & _)|(H & _)]; congruence.
  Qed.

  (** What transitional processing returns is made of labels that it leaves alone. *)
  Lemma settled : forall src r, c_string src -> zlen src < two64 -> lookup_u8 U src TR = Ok r ->
    exists ds, c_string r /\ zlen r < 255 /\ utf8 r r /\ Forall (fun c => status_of c <> Disallowed) r /\ uts46_map true false r = r /\ uts46_map false false r = r /\
      ue_nfc U r = Some r /\ dotted ds r /\ Forall (fun d => tr46_label U TR d d) ds /\ name_fits ds r.
  Proof.
    intros src r C L H. destruct tr_flags as (N & T & S & R & B).
    pose proof (lookup_idempotent U src TR r K C L R H) as I. pose proof (lookup_shape U src TR r K C L H) as (A & _ & ZZ).
    apply lookup_converted in H; auto. destruct H as (_ & o & ds & _ & _ & D & Z & _ & FX). destruct (FX N) as (_ & FX'). clear FX. rewrite T, S in FX'.
    assert (A' : Forall (fun c => 0 <= c < 128) r) by (eapply Forall_impl; [|exact A]; cbv beta; lia).
    assert (CS : c_string r) by (eapply Forall_impl; [|exact A]; cbv beta; lia).
    pose proof D as (D1 & D2 & D3).
    assert (FR : Forall (fixed true false) r).
    { rewrite D3. apply join_Forall; [apply valid_fixed; apply lower_digit_valid; auto|]. eapply Forall_impl; [|exact FX'].
      intros d Hd. eapply Forall_impl; [|exact Hd]. cbv beta. tauto. }
    destruct (fixed_map _ _ _ FR) as (M1 & M2).
    assert (ND : Forall (fun c => status_of c <> Deviation) r).
    { clear - A'. eapply Forall_impl; [|exact A']. cbv beta. intros c Hc. rewrite status_ascii by auto. unfold ascii_status.
      repeat match goal with |- context [if ?b then _ else _] => destruct b end; discriminate. }
    assert (M3 : uts46_map false false r = r) by (rewrite <- map_no_deviation by auto; exact M1).
    assert (NN : ue_nfc U r = Some r) by now apply nfc_ascii.
    exists ds. repeat (split; [first [assumption|lia]|]). split; [now apply utf8_ascii|].
    split; [eapply Forall_impl; [|exact FR]; intros c (_ & X); exact X|]. repeat (split; [assumption|]). split; [|exact Z].
    apply lookup_exact in I; auto; [|unfold two64; lia]. destruct I as (_ & I). rewrite N in I. destruct I as (l & n & ls & ds' & I1 & I2 & I3 & I4 & I5 & I6 & I7 & I8).
    apply utf8_ascii_eq in I1; [|eapply Forall_impl; [|exact A]; cbv beta; lia]. subst l. rewrite T, S, M1, NN in I4. injection I4 as <-.
    assert (ls = ds) as -> by (apply dotted_iff in I5; apply dotted_iff in D; congruence).
    assert (ds' = ds) as -> by (apply dotted_iff in I7; apply dotted_iff in D; congruence).
    clear - I6. induction ds; constructor; inversion I6; auto.
  Qed.

  Lemma self_ace : forall e, tr46_label U TR (ace e) (ace e) -> exists p, decodes_to e p /\ canon e = e /\ map lower e = e /\ zlen e <= 59 /\ uts46_valid U false false p.
  Proof.
    intros e H. remember (ace e) as s eqn:Es. remember s as d eqn:Ed in H at 2. destruct H as [A X V LE|e' p E LE D V X CE T|e' p E LE D V X|e' A X V T AL RE LE].
    - exfalso. apply X. exists e. exact Es.
    - rewrite Es in E. injection E as <-. rewrite Es in Ed. injection Ed as Ed. exists p. rewrite CE. auto.
    - discriminate.
    - exfalso. apply X. exists e. exact Es.
  Qed.
  Lemma self_cases : forall d, tr46_label U TR d d -> (all_ascii d /\ ~ xn d /\ uts46_valid U false false d /\ zlen d <= 63) \/ (exists e, d = ace e) \/ (not_ascii d /\ ~ xn d /\ exists e, d = ace e).
  Proof.
    assert (G : forall s d, tr46_label U TR s d -> d = s -> (all_ascii s /\ ~ xn s /\ uts46_valid U false false s /\ zlen s <= 63) \/ (exists e, s = ace e) \/ (not_ascii s /\ ~ xn s /\ exists e, s = ace e)).
    { intros s d H Es. destruct H as [A X V LE|e p E LE D V X CE T|e p E LE D V X|e A X V T AL RE LE].
      - left. repeat (split; [assumption|]). split; [now apply up|exact LE].
      - right. left. exists e. exact E.
      - discriminate.
      - right. right. split; [exact A|]. split; [exact X|]. exists e. symmetry. exact Es. }
    intros d H. now apply (G d d).
  Qed.
  Lemma self_passes : forall d, tr46_label U TR d d -> passes46 U NT d.
  Proof.
    intros d H. destruct (self_cases d H) as [(A & X & V & _)|[(e & E)|(A & X & e & E)] ].
    - left. auto.
    - subst d. destruct (self_ace e H) as (p & D & _ & _ & _ & V). right. exists e, p. auto.
    - subst d. exfalso. apply X. exists e. reflexivity.
  Qed.
  (** A label and what transitional processing makes of it have one Unicode form. *)
  Lemma same_form : forall s d p, tr46_label U TR s d -> tr46_label U TR d d -> unicode_form NT s p -> unicode_form NT d p /\ exists e, d = ace e.
  Proof.
    intros s d p H I F. destruct H as [A X V LE|e q E LE D V X CE T|e q E LE D V X|e A X V T AL RE LE].
    - exfalso. destruct F as [e p E R D|N].
      + apply X. exists e. exact E.
      + unfold all_ascii, not_ascii in *. apply Exists_exists in N. destruct N as (c & J & G). rewrite Forall_forall in A. specialize (A c J). lia.
    - destruct (self_ace _ I) as (p' & D' & C1 & C2 & _ & _). assert (q = p) as <-.
      { destruct F as [e' p E' R D''|N].
        - rewrite E in E'. injection E' as <-. eapply decodes_det; eauto.
        - exfalso. rewrite E in N. destruct D as (D & _). unfold not_ascii, ace in N.
          apply Exists_exists in N. destruct N as (c & J & G). rewrite Forall_forall in D. cbn [In] in J.
          destruct J as [J|[J|[J|[J|J] ] ] ]; try lia. specialize (D c J). unfold ldh_or_underscore in D. lia. }
      split; [|eexists; reflexivity]. apply (uf_alabel NT _ (map lower e)); auto. replace q with p'; [exact D'|].
      destruct D' as (_ & D' & _). destruct D as (_ & D & _). rewrite C1 in D'. rewrite CE in D. eapply rfc_decodes_det; eauto.
    - discriminate.
    - destruct (self_ace _ I) as (p' & D' & C1 & C2 & _ & _). assert (p = s) as ->.
      { destruct F as [e' p E' R D''|N]; [|reflexivity]. exfalso. apply X. exists e'. exact E'. }
      split; [|eexists; reflexivity]. apply (uf_alabel NT _ e); auto. replace s with p'; [exact D'|].
      destruct D' as (_ & D' & _). rewrite C1 in D'. destruct RE as (_ & RE). eapply rfc_decodes_det; eauto.
  Qed.
  (** If the label is good for IDNA 2008, so is what has become of it. *)
  Lemma still_good : forall s d x, tr46_label U TR s d -> tr46_label U TR d d -> tr46_label U NT s x -> tr46_label U NT d d.
  Proof.
    intros s d x H I G. destruct (self_cases d I) as [(A & X & V & LE)|[(e & E)|(A & X & e & E)] ].
    - apply t46_ascii; auto.
    - subst d. destruct (self_ace e I) as (p & D & C1 & C2 & LE & V).
      pose (r := t46_alabel U NT (ace e) e p eq_refl LE D V eq_refl). rewrite C2 in r. apply r; [exact C1|]. clear r. intros _.
      assert (F : exists q, unicode_form NT s q /\ idna2008_valid U true q).
      { destruct G as [A X V' LE'|e' q E' LE' D' V' X CE' T|e' q E' LE' D' V' X|e' A X V' T AL RE LE'].
        - exfalso. inversion H as [A1 X1|e1 p1 E1|e1 p1 E1|e1 A1 X1]; subst; try discriminate.
          + apply X. exists e. reflexivity.
          + apply X. eexists. reflexivity.
          + unfold all_ascii, not_ascii in *. apply Exists_exists in A1. destruct A1 as (c & J & G). rewrite Forall_forall in A. specialize (A c J). lia.
        - exists q. split; [now apply (uf_alabel NT s e')|]. now apply T.
        - discriminate.
        - exists s. split; [now apply uf_ulabel|]. now apply T. }
      destruct F as (q & F & Vq). destruct (same_form s (ace e) q H I F) as (F' & _). replace p with q; [exact Vq|].
      destruct F' as [e1 q E1 _ D1|N].
      + injection E1 as <-. eapply decodes_det; eauto.
      + exfalso. destruct D as (D & _). unfold not_ascii, ace in N.
          apply Exists_exists in N. destruct N as (c & J & G'). rewrite Forall_forall in D. cbn [In] in J.
          destruct J as [J|[J|[J|[J|J] ] ] ]; try lia. specialize (D c J). unfold ldh_or_underscore in D. lia.
    - exfalso. apply X. exists e. exact E.
  Qed.

  Lemma u8_unique : forall l m s, utf8 l s -> utf8 m s -> l = m.
  Proof. intros l m s A B. apply u8_to_u32_complete in A. apply u8_to_u32_complete in B. congruence. Qed.

  Lemma join_prefix : forall a d b, zlen (join a) <= zlen (join (a ++ d :: b)).
  Proof.
    induction a as [|x a IH]; intros d b; [cbn [join]; pose proof (zlen_nonneg _ (join ([] ++ d :: b))); rewrite zlen_nil; lia|].
    destruct a as [|y a].
    - cbn [app]. rewrite join_cons. change (join [x]) with x. rewrite zlen_app. pose proof (zlen_nonneg _ (46 :: join (d :: b))). lia.
    - cbn [app] in *. rewrite !join_cons. rewrite !zlen_app, !zlen_cons. specialize (IH d b). lia.
  Qed.

  Lemma again : forall src r l, c_string src -> zlen src < two64 -> utf8 l src -> Forall (fun c => status_of c <> Deviation) l ->
    fallback U src = Ok r -> fallback U r = Ok r.
  Proof.
    intros src r l C L Hu Dv H. destruct nt_flags as (N & T & S & R & B). unfold fallback in H.
    destruct (lookup_u8 U src NT) as [x|rc| |] eqn:E; try discriminate.
    { injection H as ->. apply lookup_idempotent in E; auto. unfold fallback. rewrite E. reflexivity. }
    destruct (Z.eqb_spec rc IDN2_DISALLOWED) as [X|X]; [|discriminate]. subst rc.
    destruct (settled src r C L H) as (ds & CS & LR & UR & ND & M1 & M2 & NR & DS & FS & NF).
    unfold fallback. replace (lookup_u8 U r NT) with (@Fail (list Z) IDN2_DISALLOWED).
    { cbv beta iota. rewrite Z.eqb_refl. now apply (lookup_idempotent U src TR r). }
    symmetry. assert (L2 : zlen r < two64) by (unfold two64; lia). apply refusal_exact; auto.
    apply refuses_iff. { intros l' Hl' Ex. rewrite (u8_unique _ _ _ Hl' UR) in Ex. apply Exists_exists in Ex. destruct Ex as (c & J & G). rewrite Forall_forall in ND. now apply (ND c J). }
    pose proof H as H0. apply lookup_exact in H0; auto. destruct H0 as (_ & H0). cbn [opt_no_tr46] in H0.
    change (opt_no_tr46 TR) with false in H0. destruct H0 as (l' & n & ls & ds' & I1 & I2 & I3 & I4 & I5 & I6 & I7 & I8).
    rewrite (u8_unique _ _ _ I1 Hu) in *. clear l' I1.
    assert (ds' = ds) as -> by (apply dotted_iff in I7; apply dotted_iff in DS; congruence).
    apply refusal_explained in E; auto. apply refuses_iff in E; [|intros l' Hl'; rewrite (u8_unique _ _ _ Hl' Hu); exact I2].
    destruct E as (l' & n' & a & s & b & es & p & J1 & J2 & J3 & J4 & J5 & J6 & J7 & J8 & J9).
    rewrite (u8_unique _ _ _ J1 Hu) in *. clear l' J1.
    change (opt_transitional TR) with true in I4. change (opt_std3 TR) with false in I4. rewrite map_no_deviation in I4 by auto.
    rewrite J3 in I4. injection I4 as <-.
    assert (ls = a ++ s :: b) as -> by (apply dotted_iff in I5; apply dotted_iff in J4; congruence).
    apply Forall2_app_inv_l in I6. destruct I6 as (da & db & I6 & I6' & ->). inversion I6' as [|s0 d b0 db' I6a I6b]; subst.
    exists r, r, da, d, db', da, p. rewrite M2. split; [exact UR|]. split; [exact LR|]. split; [exact NR|]. split; [exact DS|].
    split; [eapply Forall_impl; [|exact FS]; intros; now apply self_passes|].
    split. { apply Forall_app in FS. destruct FS as (FS & _). clear - K FS I6 J6. revert es J6. induction I6 as [|s d a da H I6 IH]; intros es J6; inversion J6; subst; constructor; inversion FS; subst.
      - now apply (still_good s d y).
      - eapply IH; eauto. }
    split. { destruct DS as (_ & _ & DS). pose proof (join_prefix da d db') as JP. rewrite <- DS in JP. destruct NF as [NF|(NF & Lst)]; [lia|].
      destruct da as [|x da]; [cbn [join]; rewrite zlen_nil; lia|]. enough (zlen (join (x :: da)) < zlen r) by lia. rewrite DS.
      rewrite join_app by discriminate. rewrite !zlen_app, zlen_cons. pose proof (zlen_nonneg _ (join (d :: db'))). lia. }
    assert (Sd : tr46_label U TR d d) by (rewrite Forall_forall in FS; apply FS; apply in_or_app; right; now left).
    split; [|exact J9]. now apply (same_form s d p).
  Qed.

  (** In general only this much. *)
  Lemma stable : forall src r, c_string src -> zlen src < two64 -> fallback U src = Ok r ->
    fallback U r = Ok r \/ exists rc, rc <> IDN2_DISALLOWED /\ lookup_u8 U r NT = Fail rc.
  Proof.
    intros src r C L H. destruct nt_flags as (N & T & S & R & B). unfold fallback in H.
    destruct (lookup_u8 U src NT) as [x|rc| |] eqn:E; try discriminate.
    { injection H as ->. apply lookup_idempotent in E; auto. left. unfold fallback. rewrite E. reflexivity. }
    destruct (Z.eqb_spec rc IDN2_DISALLOWED) as [X|X]; [|discriminate]. subst rc.
    destruct (settled src r C L H) as (ds & CS & LR & UR & ND & M1 & M2 & NR & DS & FS & NF).
    assert (L2 : zlen r < two64) by (unfold two64; lia). pose proof (lookup_safe U r NT K CS L2) as SF.
    unfold fallback. destruct (lookup_u8 U r NT) as [x|rc| |] eqn:E2; cbv beta iota; try destruct SF.
    - left. f_equal. apply lookup_exact in E2; auto. destruct E2 as (_ & E2). rewrite N in E2. destruct E2 as (l & n & ls & ds' & I1 & I2 & I3 & I4 & I5 & I6 & I7 & I8).
      rewrite (u8_unique _ _ _ I1 UR), T, S, M2, NR in I4. injection I4 as <-.
      assert (ls = ds) as -> by (apply dotted_iff in I5; apply dotted_iff in DS; congruence).
      destruct I7 as (_ & _ & ->). destruct DS as (_ & _ & DS). rewrite DS. f_equal. clear - K FS I6. induction I6 as [|d x ds xs G I6 IH]; [reflexivity|]. inversion FS; subst. f_equal; [|auto].
      destruct (self_cases d H1) as [(A & X & V & LE)|[(e & E)|(A & X & e & E)] ].
      + destruct G as [A1 X1|e1 p1 E1|e1 p1 E1|e1 A1 X1]; try reflexivity; try discriminate; exfalso.
        * apply X. exists e1. exact E1.
        * unfold all_ascii, not_ascii in *. apply Exists_exists in A1. destruct A1 as (c & J & G). rewrite Forall_forall in A. specialize (A c J). lia.
      + subst d. destruct (self_ace e H1) as (p & D & C1 & C2 & LE & V). remember (ace e) as s eqn:Es. destruct G as [A1 X1|e1 p1 E1|e1 p1 E1|e1 A1 X1]; try reflexivity; try discriminate.
        * rewrite Es in E1. injection E1 as <-. rewrite C2. symmetry. exact Es.
        * exfalso. apply X1. exists e. exact Es.
      + exfalso. apply X. exists e. exact E.
    - destruct (Z.eqb_spec rc IDN2_DISALLOWED) as [Y|Y]; [|right; exists rc; auto]. left. now apply (lookup_idempotent U src TR r).
  Qed.

  (** Without deviation characters the result is that of transitional processing. *)
  Lemma fallback_transitional : forall src r l n, c_string src -> zlen src < two64 -> utf8 l src -> Forall (fun c => status_of c <> Deviation) l ->
    ue_nfc U (uts46_map false false l) = Some n -> Forall (fun c => status_of c <> Deviation) n ->
    fallback U src = Ok r -> lookup_u8 U src TR = Ok r.
  Proof.
    intros src r l n C L Hu Dl Hn Dn H. destruct nt_flags as (N & T & S & R & B). destruct tr_flags as (N' & T' & S' & R' & B'). unfold fallback in H.
    destruct (lookup_u8 U src NT) as [x|rc| |] eqn:E; try discriminate.
    - injection H as ->. apply (transitional_agrees U src NT TR r l n); auto.
    - destruct (rc =? IDN2_DISALLOWED); [exact H|discriminate].
  Qed.
End Fallback.
