(** Which codes lookup returns; what accepted labels satisfy. *)
From Verif Require Import Base PunyBase Uenv DataTypes DataTr46 SpecUtf8 SpecPuny SpecTables SpecLabel SpecNfc SpecLookup Gentr46 Tr46Map
  Tr46Facts Utf8 Utf8Proofs Idna Puny PunyTop Lookup LabelProofs NfcProofs MapProofs LookupProofs LookupTr46 LookupIdem LookupMisc LookupMap BaseTop StableProofs LookupTop.

Definition fails {A} (m : out A) : Prop := forall rc, m = Fail rc -> In rc lookup_errors.
Lemma fails_bind : forall A B (m : out A) (f : A -> out B), fails m -> (forall a, m = Ok a -> fails (f a)) -> fails (bind m f).
Proof. intros A B [a|rc| |] f S H; cbn [bind]; auto; intros rc' E; try discriminate. injection E as <-. now apply S. Qed.
Lemma fails_conv : forall A (o : option A), fails (conv o IDN2_ENCODING_ERROR).
Proof. intros A [a|] rc H; [discriminate|]. injection H as <-. unfold lookup_errors. cbn [In]. auto. Qed.
Lemma fails_ok : forall A (a : A), fails (Ok a). Proof. intros A a rc H. discriminate. Qed.
Lemma fails_one : forall A rc, In rc lookup_errors -> fails (@Fail A rc). Proof. intros A rc H rc' E. injection E as <-. exact H. Qed.
Ltac code := unfold lookup_errors; cbn [In]; tauto.
Lemma ff_sel : forall ts r, first_failure ts r -> forall rc, r = Some rc -> exists t, In t ts /\ fst (fst t) = true /\ ~ snd (fst t) /\ snd t = rc.
Proof.
  induction 1 as [|sel P rc0 ts r S F IH|sel P rc0 ts S NP]; intros rc E; [discriminate| |].
  - destruct (IH rc E) as (t & I & X). exists t. split; [now right|exact X].
  - injection E as <-. exists (sel, P, rc0). split; [now left|]. cbn [fst snd]. auto.
Qed.
Ltac sel_cases I S NP N46 :=
  cbn [In] in I; repeat (destruct I as [<-|I]; [cbn [fst snd] in *; first [discriminate S | code | exfalso; apply NP; apply Forall_forall; intros ? ? ->; exact (N46 ltac:(assumption))]|]); destruct I.
Lemma fails_label_test : forall U flags l, Forall (fun c => 0 <= c) l -> ~ In 46 l -> fails (label_test U (label_tests flags) l).
Proof.
  intros U flags l F N46 rc H. apply label_test_fail_iff in H; auto. destruct (ff_sel _ _ H rc eq_refl) as (t & I & S & NP & <-). clear H.
  rewrite label_tests_eq in I. unfold label_tests_spec in I. cbv zeta in I.
  destruct (opt_nontransitional flags), (opt_std3 flags); revert I; bits; cbn [orb andb]; intros I; sel_cases I S NP N46.
Qed.
Lemma fails_check : forall U flags ace l, Forall (fun c => 0 <= c) l -> ~ In 46 l -> fails (label_test U (tr46_what flags ace) l).
Proof.
  intros U flags ace l F N46 rc H. apply label_test_fail_iff in H; auto. destruct (ff_sel _ _ H rc eq_refl) as (t & I & S & NP & <-). clear H.
  rewrite tr46_what_eq in I. unfold label_tests_spec in I. cbv zeta in I.
  destruct (negb ace && opt_transitional flags), (opt_std3 flags); revert I; bits; cbn [orb andb]; intros I; sel_cases I S NP N46.
Qed.
Lemma fails_decode : forall t, zlen t < two64 -> fails (puny_decode t 63 63).
Proof.
  intros t L rc H. pose proof (decode_safe t 63 63 ltac:(lia) ltac:(lia) L) as D. rewrite H in D. destruct D as [->|[->| ->]]; code.
Qed.
Lemma fails_encode : forall p, u32_list p -> fails (puny_encode p 59 59).
Proof.
  intros p L rc H. pose proof (encode_shape p 59 59 L ltac:(unfold two64; lia) ltac:(lia)) as D. rewrite H in D.
  destruct D as [->|[(-> & _)|(-> & _)]]; code.
Qed.
Lemma fails_tail : forall U flags src org, nfc_ok U -> bytes src -> ~ In 46 src -> zlen src < two64 -> fails (label_tail U src org 63 flags).
Proof.
  intros U flags src org K B N46 L. unfold label_tail. apply fails_bind.
  - intros rc H. rewrite has_nfc in H. destruct (u8_to_u32 src) as [l|] eqn:E.
    + destruct (opt_nfc flags).
      * destruct (nfc_or_skip U src l E) as [X|(X & _)]; rewrite X in H; [|discriminate]. destruct (ue_nfc U l); [discriminate|]. injection H as <-. code.
      * unfold u8_to_u32_nfc in H. rewrite E in H. discriminate.
    + unfold u8_to_u32_nfc in H. rewrite E in H. injection H as <-. code.
  - intros p Hp. apply u8_nfc_ok in Hp. destruct Hp as (l & Hl & Hn). apply u8_to_u32_iff in Hl; auto.
    pose proof (norm_scalar _ _ _ _ K (utf8_scalar _ _ Hl) Hn) as S.
    assert (P46 : ~ In 46 p). { apply (norm_sep _ _ _ _ 46 K (or_intror eq_refl)) with (2 := Hn). rewrite <- (utf8_In _ _ 46 Hl) by lia. exact N46. }
    apply fails_bind.
    + destruct (negb (has flags IDN2_TRANSITIONAL)); cbn [when]; [|apply fails_ok]. apply fails_label_test; auto. now apply scalar_nonneg.
    + intros _ _. change (63 <? 4) with false. cbv iota. change (63 - 4) with 59. apply fails_bind; [apply fails_encode; now apply scalar_u32|].
      intros enc HE. destruct org as [o|].
      * destruct (casecmp_eq _ _); [apply fails_ok|apply fails_one; code].
      * destruct (negb _); [|apply fails_ok]. destruct (puny_decode enc LABEL_MAX LABEL_MAX); try (intros rc H; discriminate H).
        -- destruct (list_eqb _ _); [apply fails_ok|apply fails_one; code].
        -- apply fails_one. code.
Qed.
Lemma fails_label : forall U flags src, nfc_ok U -> plain_label src -> fails (label U src 63 flags).
Proof.
  intros U flags src K P. destruct (plain_bytes _ P) as (B & L). destruct P as (_ & N46 & _). unfold label. destruct (ascii_p src); [|now apply fails_tail].
  destruct (_ && _) eqn:E.
  - assert (LT : zlen (skipn 4 src) < two64) by (pose proof (skipn_zlen 4 src); lia).
    apply fails_bind; [now apply fails_decode|]. intros l32 D. change LABEL_MAX with 63 in D.
    apply fails_bind; [apply fails_conv|]. intros s' C. destruct (u32_to_u8 l32) as [s''|] eqn:C2; [|discriminate]. injection C as ->.
    destruct (decoded_label _ _ _ D LT C2) as (_ & _ & N). apply u32_to_u8_iff in C2. apply fails_tail; auto.
    + now apply utf8_bytes in C2.
    + rewrite (utf8_In _ _ 46 C2) by lia. exact N.
    + pose proof (utf8_len _ _ C2). destruct (decoded _ _ D LT) as (X & _). unfold two64. lia.
  - repeat match goal with |- fails (if ?b then _ else _) => destruct b; [apply fails_one; code|] end. apply fails_ok.
Qed.
Lemma fails_labels : forall U flags ls acc, nfc_ok U -> Forall plain_label ls -> fails (lookup_labels U flags ls acc).
Proof.
  intros U flags ls acc K F. revert acc. induction F as [|l ls P F IH]; intros acc; cbn [lookup_labels]; [apply fails_ok|].
  change LABEL_MAX with 63. apply fails_bind; [now apply fails_label|]. intros d _.
  destruct (_ <? _); [apply fails_one; code|]. destruct (_ <? _); [intros rc H; discriminate H|]. destruct ls as [|l2 ls].
  - destruct (_ <? _); [intros rc H; discriminate H|apply fails_ok].
  - destruct (_ <? _); [apply fails_one; code|]. destruct (_ <? _); [intros rc H; discriminate H|]. apply IH.
Qed.
Lemma fails_checks : forall U flags ls err, Forall (fun s => Forall scalar s /\ zlen s < 1000000 /\ ~ In 46 s) ls ->
  (err <> IDN2_OK -> In err lookup_errors) ->
  fails (tr46_checks U flags ls err) /\ forall e, tr46_checks U flags ls err = Ok e -> e <> IDN2_OK -> In e lookup_errors.
Proof.
  intros U flags ls err F. revert err. induction F as [|s ls (S & L & N46) F IH]; intros err HE.
  - cbn [tr46_checks]. split; [apply fails_ok|]. intros e X. injection X as <-. exact HE.
  - assert (C : fails (tr46_check1 U flags s) /\ forall t, tr46_check1 U flags s = Ok t -> fails t).
    { unfold tr46_check1. destruct (has_ace_prefix s).
      - destruct (u32_to_u8 (skipn 4 s)) as [t8|] eqn:C; cbn [conv bind]; [|split; [apply fails_one; code|intros t X; discriminate]].
        apply u32_to_u8_iff in C. pose proof (utf8_len _ _ C). pose proof (skipn_zlen 4 s). change LABEL_MAX with 63.
        assert (LT : zlen t8 < two64) by (unfold two64; lia). pose proof (fails_decode t8 LT) as FD.
        destruct (puny_decode t8 63 63) as [name| | |] eqn:D; cbn [bind]; (split; [try (intros rc X; discriminate X)|intros t HT; try discriminate]).
        + injection HT as <-. destruct (decoded t8 name D LT) as (_ & _ & _ & P & A & _). apply (fails_check U flags true); [now apply permitted_nonneg|].
          intros I. rewrite Forall_forall in A. apply A in I; [|lia]. unfold ldh_or_underscore in I. lia.
        + intros rc0 X. injection X as <-. now apply FD.
      - split; [apply fails_ok|]. intros t X. injection X as <-. apply (fails_check U flags false); auto. now apply scalar_nonneg. }
    destruct C as (C1 & C2).
    assert (G : fails (let* t := tr46_check1 U flags s in
            match t with
            | Ok _ => tr46_checks U flags ls err
            | Fail rc => tr46_checks U flags ls rc
            | Undef => Undef
            | NoFuel => NoFuel
            end) /\ forall e, (let* t := tr46_check1 U flags s in
            match t with
            | Ok _ => tr46_checks U flags ls err
            | Fail rc => tr46_checks U flags ls rc
            | Undef => Undef
            | NoFuel => NoFuel
            end) = Ok e -> e <> IDN2_OK -> In e lookup_errors).
    { destruct (tr46_check1 U flags s) as [t|rc| |] eqn:ET; cbn [bind]; [|split; [intros rc0 X; injection X as <-; now apply C1|intros e X; discriminate X]
        |split; intros ? X; discriminate X|split; intros ? X; discriminate X].
      destruct t as [u|rc| |]; [now apply IH| |split; intros ? X; discriminate X|split; intros ? X; discriminate X]. apply IH. intros _. now apply (C2 (Fail rc)). }
    cbn [tr46_checks]. destruct s as [|c s]; [|exact G]. destruct ls as [|l2 ls]; [|exact G]. split; [apply fails_ok|]. intros e X. injection X as <-. exact HE.
Qed.
Lemma fails_tr46 : forall U src flags, nfc_ok U -> c_string src -> fails (tr46 U src flags).
Proof.
  intros U src flags K C. rewrite tr46_eq by auto. unfold tr46_spec. destruct (u8_to_u32 src) as [l|] eqn:E; [|apply fails_one; code].
  apply u8_to_u32_iff in E; [|now apply c_string_bytes].
  destruct (existsb disallowedb l); [apply fails_one; code|]. cbv zeta. set (m := uts46_map (opt_transitional flags) (opt_std3 flags) l).
  destruct (uts46_map_ok (opt_transitional flags) (opt_std3 flags) l (utf8_scalar _ _ E) (utf8_c_string _ _ E C)) as (M1 & M2). fold m in M1, M2.
  destruct (255 <=? zlen m) eqn:EL; [apply fails_one; code|]. apply Z.leb_gt in EL.
  destruct (ue_nfc U m) as [n|] eqn:EN; [|apply fails_one; code].
  pose proof (nfc_scalar U K _ _ M1 EN) as N1. pose proof (nfc_length U K _ _ EN) as N2.
  assert (F : Forall (fun s => Forall scalar s /\ zlen s < 1000000 /\ ~ In 46 s) (split_dots n)).
  { apply Forall_forall. intros s Hs. pose proof (split_Forall scalar n N1) as Q. rewrite Forall_forall in Q.
    pose proof (split_nodot n) as ND. rewrite Forall_forall in ND. split; [now apply Q|]. split; [apply split_zlen in Hs; lia|now apply ND]. }
  destruct (fails_checks U flags (split_dots n) IDN2_OK F ltac:(congruence)) as (F1 & F2). apply fails_bind; [exact F1|].
  intros err He. destruct (err =? IDN2_OK) eqn:EE; cbn [negb]; [apply fails_conv|]. apply fails_one. apply F2; auto. now apply Z.eqb_neq.
Qed.
Lemma lookup_codes : forall U src flags rc, nfc_ok U -> c_string src -> zlen src < two64 -> lookup_u8 U src flags = Fail rc ->
  (bad_flags flags /\ rc = IDN2_INVALID_FLAGS) \/ (~ bad_flags flags /\ In rc lookup_errors).
Proof.
  intros U src flags rc K C L H. unfold lookup_u8 in H. destruct (set_flags_spec flags) as [(B & E)|(B & E)]; rewrite E in H.
  - left. injection H as <-. auto.
  - right. split; [exact B|]. cbn [bind] in H. revert rc H. apply fails_bind.
    + destruct (negb _); [now apply fails_tr46|apply fails_ok].
    + intros o Ho. apply fails_labels; auto. rewrite has_no_tr46, eff_no_tr46 in Ho. destruct (opt_no_tr46 flags) eqn:N; cbn [negb] in Ho.
      * injection Ho as <-. now apply plain_split.
      * apply tr46_ok_iff in Ho; auto. destruct Ho as (l & n & T). apply tr46_out in T. apply plain_split; [tauto|unfold two64; lia].
Qed.
Lemma invalid_flags : forall U src flags, nfc_ok U -> c_string src -> zlen src < two64 ->
  (lookup_u8 U src flags = Fail IDN2_INVALID_FLAGS <-> bad_flags flags).
Proof.
  intros U src flags K C L. split.
  - intros H. apply lookup_codes in H; auto. destruct H as [(B & _)|(_ & I)]; [exact B|]. unfold lookup_errors in I. cbn [In] in I.
    repeat (destruct I as [I|I]; [discriminate I|]). destruct I.
  - intros B. unfold lookup_u8. destruct (set_flags_spec flags) as [(_ & E)|(X & _)]; [now rewrite E|contradiction].
Qed.

(** ** C43, C44 *)
Lemma accepted_tests : forall U src f r d e, nfc_ok U -> c_string src -> zlen src < two64 -> opt_no_roundtrip f = false -> opt_transitional f = false ->
  lookup_u8 U src f = Ok r -> (exists ds, dotted ds r /\ In d ds) -> d = ace_prefix ++ e ->
  exists p, rfc_decodes e p /\ Exists (fun c => 128 <= c) p /\ ok_nfc U p /\ ok_2hyphen p /\ ok_leading U p /\
    ok_disallowed p (negb (opt_no_tr46 f) && negb (opt_std3 f)) /\ ok_no p UNASSIGNED /\
    ok_contextj_rule U p /\ ok_bidi U p /\ (opt_no_tr46 f = false -> ok_hyphen_startend p /\ ok_status p false (negb (opt_std3 f))).
Proof.
  intros U src f r d e K C L R T H (ds & D & I) E. apply lookup_converted in H; auto.
  destruct H as (B & o & ds' & P & F & D' & _ & CV & TR). assert (ds' = ds) as -> by (apply dotted_iff in D, D'; congruence).
  destruct (Forall2_in_right _ _ _ _ _ d CV I) as (s8 & _ & X). destruct X as [A N _|p enc l DE EN S NF LP _ _ _ _]; [exfalso; apply N; now exists e|].
  apply app_inv_head in E. subst e. exists p. specialize (LP ltac:(now rewrite eff_transitional)).
  destruct LP as (L1 & L2 & L3 & L4 & L5 & L6 & L7 & L8). rewrite eff_nontransitional, eff_std3, T, orb_false_r in L4 by auto.
  split; [now apply enc_rfc|].
  split; [|repeat (split; [assumption|])].
  - assert (LE : zlen enc < two64).
    { pose proof (encode_safe p 59 59 (scalar_u32 _ S) ltac:(unfold two64; lia) ltac:(lia)) as (_ & X). specialize (X enc EN). unfold two64. lia. }
    destruct (decoded enc p DE LE) as (_ & _ & _ & _ & _ & X). exact X.
  - intros N. destruct (TR N) as (CK & _). rewrite Forall_forall in CK. specialize (CK _ I). destruct CK as [NX _|t t8 name Et U8 D8 TT]; [exfalso; apply NX; now exists enc|].
    apply app_inv_head in Et. subst t.
    assert (AE : Forall (fun c => 0 <= c < 128) enc).
    { assert (LE : zlen enc < two64).
      { pose proof (encode_safe p 59 59 (scalar_u32 _ S) ltac:(unfold two64; lia) ltac:(lia)) as (_ & X). specialize (X enc EN). unfold two64. lia. }
      eapply Forall_impl; [|exact (decode_ascii enc p DE LE)]. cbv beta. lia. }
    rewrite (utf8_fun _ _ _ U8 (utf8_ascii _ AE)), DE in D8. injection D8 as <-.
    apply tr46_pass_iff in TT; [|now apply scalar_nonneg]. destruct TT as (_ & _ & T3 & _ & _ & T6). rewrite eff_std3 in T6. cbn [negb andb] in T6. auto.
Qed.
Lemma no_upper_case : forall U src f r, nfc_ok U -> c_string src -> zlen src < two64 -> opt_no_roundtrip f = false -> opt_no_tr46 f = false ->
  lookup_u8 U src f = Ok r -> Forall (fun b => ~ (65 <= b <= 90)) r.
Proof.
  intros U src f r K C L R N H. apply lookup_converted in H; auto. destruct H as (_ & o & ds & _ & _ & D & _ & _ & TR). destruct (TR N) as (_ & FX).
  destruct D as (_ & _ & ->). apply join_Forall; [lia|]. eapply Forall_impl; [|exact FX]. intros d Hd. eapply Forall_impl; [|exact Hd]. cbv beta. tauto.
Qed.
