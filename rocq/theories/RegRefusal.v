(** When registration succeeds, and when and why it fails. *)
From Verif Require Import Base PunyBase PunyRT PunyInv PunyComplete PunyExact Uenv DataTypes SpecUtf8 SpecPuny SpecTables SpecBidi SpecContext SpecLabel SpecNfc
  SpecLookup SpecRegister Utf8 Utf8Proofs Idna Puny PunyTop Lookup LabelProofs NfcProofs MapProofs LookupProofs LookupTr46 LookupIdem LookupTop BaseTop Api ApiProofs Register
  RegisterProofs RegisterTop SpecToAscii SpecRefusal ToAsciiProofs Compose RefusalLabel RefusalProofs SpecPunyErr PunyErr SpecRegRefusal.

Section P.
  Variable U : uenv.
  Hypothesis K : nfc_ok U.

  Lemma reg_fw : forall p rc, Forall (fun c => 0 <= c) p -> (label_test U REGISTER_TESTS p = Fail rc <-> first_wrong (registration_tests U p) rc).
  Proof.
    intros p rc F. rewrite label_test_fail_iff by auto. change REGISTER_TESTS with 3679. unfold label_tests_spec, registration_tests. cbv zeta.
    repeat match goal with |- context [bit 3679 ?n] => let b := eval vm_compute in (bit 3679 n) in change (bit 3679 n) with b end. cbn [orb andb].
    repeat (first [apply ff_skip | apply ff_keep; intros _ | apply ff_end]).
  Qed.
  Lemma fw_reg : forall p rc, first_wrong (registration_tests U p) rc -> ~ registrable U p.
  Proof.
    intros p rc H [A B C D E F G I J]. apply (fw_not_all _ _ H). unfold registration_tests.
    repeat (apply Forall_cons; [cbn [fst]; auto|]); [|apply Forall_nil]. unfold ok_normalises, ok_nfc in *. congruence.
  Qed.
  Lemma encodes60 : forall p e, Forall scalar p -> (puny_encode p 59 60 = Ok e <-> rfc_encodes p e /\ zlen e <= 59).
  Proof.
    intros p e S. rewrite encode_iff; [|now apply scalar_u32|lia|lia]. split; [tauto|]. intros H. split; [|exact H]. now apply RefusalProofs.scalar_permitted.
  Qed.
  Lemma long60_fw : forall p rc, Forall scalar p -> puny_encode p 59 60 = Fail rc -> too_long p rc.
  Proof. intros p rc S. apply long_room; auto. lia. Qed.
  Lemma long60_bw : forall p rc, Forall scalar p -> too_long p rc -> exists rc', puny_encode p 59 60 = Fail rc' /\ sim (4000000000 < zlen p) rc rc'.
  Proof. intros p rc S. apply room_long; auto. lia. Qed.
  Lemma decodes252 : forall e p, zlen e <= 59 -> (puny_decode e 252 1020 = Ok p <-> decodes_to e p).
  Proof.
    intros e p L. assert (LE : zlen e < two64) by (unfold two64; lia). split.
    - intros H. pose proof (decode_safe e 252 1020 ltac:(lia) ltac:(lia) LE) as S. rewrite H in S. destruct S as (S1 & S2 & S3 & S4 & S5 & S6).
      rewrite <- decodes_iff by exact LE. destruct (puny_decode_inv e 252 1020 p) as (LD & _); auto; try (unfold maxint; lia).
      apply decode_complete; auto; try lia. apply (D_canon_rfc e 252 1020 p); auto; lia.
    - intros (H1 & H2 & H3 & H4 & H5). apply decode_complete; auto; lia.
  Qed.
  Lemma encoded_no0 : forall p e, Forall scalar p -> registrable U p -> rfc_encodes p e -> upto0 (ace e) = ace e.
  Proof.
    intros p e S R ((ds & LO & ->) & _). apply upto0_id. unfold ace. cbn [In]. intros [X|[X|[X|[X|X]]]]; try lia.
    apply in_app_or in X. destruct X as [X|X].
    - unfold ascii_part in X. apply filter_In in X. destruct X as (X & _). exact (registrable_no0 U p S R X).
    - apply in_app_or in X. destruct X as [X|X]; [destruct (zlen (ascii_part p) =? 0); cbn in X; intuition lia|].
      rewrite Forall_forall in LO. apply LO in X. unfold lower_or_digit in X. lia.
  Qed.

  (** ** reg_ulabel behind its conversion *)
  Definition rest (p : list Z) : out (list Z) :=
    let* _ := label_test U REGISTER_TESTS p in
    let* e := puny_encode p (LABEL_MAX - 4) (LABEL_MAX - 3) in
    if LABEL_MAX - 3 <=? zlen e then Undef else Ok (upto0 (ace_prefix ++ e)).
  Lemma rest_ok : forall p r, Forall scalar p -> (rest p = Ok r <-> registrable U p /\ exists e, r = ace e /\ rfc_encodes p e /\ zlen e <= 59).
  Proof.
    intros p r S. unfold rest. change (LABEL_MAX - 4) with 59. change (LABEL_MAX - 3) with 60. split.
    - intros H. apply bind_ok in H. destruct H as ([] & T & H). apply register_tests in T; auto. split; [exact T|].
      apply bind_ok in H. destruct H as (e & E & H). apply encodes60 in E; auto. destruct E as (E & L). destruct (60 <=? zlen e) eqn:X; zb; [lia|].
      exists e. split; [|auto]. change (ace_prefix ++ e) with (ace e) in H. rewrite (encoded_no0 p e) in H by auto. congruence.
    - intros (T & e & -> & E & L). pose proof (proj2 (register_tests U p S) T) as X. rewrite X. cbn [bind].
      rewrite (proj2 (encodes60 p e S) (conj E L)). cbn [bind]. destruct (60 <=? zlen e) eqn:Y; zb; [lia|].
      change (ace_prefix ++ e) with (ace e). now rewrite (encoded_no0 p e).
  Qed.
  Lemma rest_fail : forall p rc, Forall scalar p -> rest p = Fail rc -> first_wrong (registration_tests U p) rc \/ (registrable U p /\ too_long p rc).
  Proof.
    intros p rc S H. unfold rest in H. change (LABEL_MAX - 4) with 59 in H. change (LABEL_MAX - 3) with 60 in H. apply bind_fail in H. destruct H as [H|([] & T & H)].
    - left. apply reg_fw; auto. now apply scalar_nonneg.
    - right. apply register_tests in T; auto. split; [exact T|]. apply bind_fail in H. destruct H as [H|(e & E & H)]; [now apply long60_fw|]. destruct (60 <=? zlen e); discriminate.
  Qed.
  Lemma rest_test : forall p rc, Forall scalar p -> first_wrong (registration_tests U p) rc -> rest p = Fail rc.
  Proof. intros p rc S H. apply reg_fw in H; [|now apply scalar_nonneg]. unfold rest. now rewrite H. Qed.
  Lemma rest_long : forall p rc, Forall scalar p -> registrable U p -> too_long p rc -> exists rc', rest p = Fail rc' /\ sim (4000000000 < zlen p) rc rc'.
  Proof.
    intros p rc S R H. destruct (long60_bw p rc S H) as (rc' & E & M). exists rc'. split; [|exact M]. unfold rest. rewrite (proj2 (register_tests U p S) R). cbn [bind].
    change (LABEL_MAX - 4) with 59. change (LABEL_MAX - 3) with 60. now rewrite E.
  Qed.
  Lemma reg_ulabel_rest : forall u f, reg_ulabel U u f = if ascii_p u then if 63 <? zlen u then Fail IDN2_TOO_BIG_LABEL else Ok u else
    bind (u8_to_u32_nfc U u (opt_nfc f)) rest.
  Proof. intros u f. unfold reg_ulabel, rest. now rewrite RegisterProofs.has_nfc. Qed.

  Lemma ascii_p_not : forall u, ascii_p u = false <-> not_ascii u.
  Proof. intros u. rewrite not_ascii_iff. unfold all_ascii. rewrite <- ascii_p_iff. now rewrite not_true_iff_false. Qed.

  Lemma reg_u_exact : forall u f r, c_string u -> (reg_ulabel U u f = Ok r <-> registers U f (Some u) None r).
  Proof.
    intros u f r C. rewrite reg_ulabel_rest. pose proof (c_string_bytes _ C) as B. destruct (ascii_p u) eqn:A.
    - apply ascii_p_iff in A. split.
      + destruct (63 <? zlen u) eqn:L; zb; [discriminate|]. intros H. assert (u = r) as <- by congruence. now apply rg_ascii.
      + intros H. inversion H as [u' A' L'|u' l p e NA ? ? ? ? ?|]; subst; [destruct (63 <? zlen r) eqn:L; zb; [lia|reflexivity]|].
        apply not_ascii_iff in NA. contradiction.
    - apply ascii_p_not in A. split.
      + intros H. apply bind_ok in H. destruct H as (p & N & H). apply nfc_conv_iff in N. destruct N as (l & E & N). apply u8_to_u32_iff in E; auto.
        pose proof (normal_scalar U _ l p K (utf8_scalar _ _ E) N) as S. apply rest_ok in H; auto. destruct H as (R & e & -> & X & L). now apply (rg_ulabel U f u l p e).
      + intros H. inversion H as [u' A' L'|u' l p e NA E N R X L|]; subst; [apply not_ascii_iff in A; contradiction|].
        pose proof (normal_scalar U _ l p K (utf8_scalar _ _ E) N) as S. apply u8_to_u32_iff in E; auto.
        assert (Y : u8_to_u32_nfc U u (opt_nfc f) = Ok p) by (apply nfc_conv_iff; eauto). rewrite Y. cbn [bind]. apply rest_ok; eauto.
  Qed.
  Lemma reg_u_refused : forall u f, c_string u -> sound (1000000000 < zlen u) (reg_ulabel U u f) (registration_refused U f (Some u) None).
  Proof.
    intros u f C. rewrite reg_ulabel_rest. pose proof (c_string_bytes _ C) as B. destruct (ascii_p u) eqn:A.
    - apply ascii_p_iff in A. assert (AA : ~ not_ascii u) by (rewrite not_ascii_iff; intros X; now apply X). split.
      + intros rc H. destruct (63 <? zlen u) eqn:L; zb; [|discriminate]. assert (rc = IDN2_TOO_BIG_LABEL) as -> by congruence. now apply rr_long.
      + intros rc H. inversion H as [u' A' L' E1 E2|u' NA|u' l NA|u' l p rc' NA|u' l p rc' NA| | | | | | |]; subst; try contradiction.
        exists IDN2_TOO_BIG_LABEL. split; [|now left]. destruct (63 <? zlen u) eqn:L; zb; [reflexivity|lia].
    - apply ascii_p_not in A. split.
      + intros rc H. apply bind_fail in H. destruct H as [H|(p & N & H)].
        * apply nfc_conv_fail in H. destruct H as [(E & ->)|(l & E & O & Q & N & ->)].
          -- apply rr_utf8; auto. intros l X. apply u8_to_u32_iff in X; auto. congruence.
          -- apply u8_to_u32_iff in E; auto. now apply (rr_nfc U f u l).
        * apply nfc_conv_iff in N. destruct N as (l & E & N). apply u8_to_u32_iff in E; auto.
          pose proof (normal_scalar U _ l p K (utf8_scalar _ _ E) N) as S. apply rest_fail in H; auto.
          destruct H as [H|(R & H)]; [now apply (rr_test U f u l p)|now apply (rr_encode U f u l p)].
      + assert (CV : forall l p, utf8 l u -> normal_form U (opt_nfc f) l p -> Forall scalar p /\ u8_to_u32_nfc U u (opt_nfc f) = Ok p).
        { intros l p E N. split; [exact (normal_scalar U _ l p K (utf8_scalar _ _ E) N)|]. apply u8_to_u32_iff in E; auto. apply nfc_conv_iff. eauto. }
        intros rc H. inversion H as [u' A' L' E1 E2|u' NA N|u' l NA E O Q N|u' l p rc' NA E N T|u' l p rc' NA E N R T| | | | | | |]; subst.
        * apply not_ascii_iff in A. contradiction.
        * exists IDN2_ENCODING_ERROR. split; [|now left]. apply bind_fail. left. apply nfc_conv_fail. left. split; [|reflexivity].
          destruct (u8_to_u32 u) as [l|] eqn:E; [|reflexivity]. apply u8_to_u32_iff in E; auto. destruct (N l E).
        * exists IDN2_NFC. split; [|now left]. apply bind_fail. left. apply nfc_conv_fail. right. apply u8_to_u32_iff in E; auto. exists l. auto.
        * destruct (CV l p E N) as (S & X). rewrite X. cbn [bind]. exists rc. split; [now apply rest_test|now left].
        * destruct (CV l p E N) as (S & X). rewrite X. cbn [bind]. destruct (rest_long p rc S R T) as (rc' & Y1 & Y2). exists rc'. split; [exact Y1|]. refine (sim_weaken _ _ _ _ _ Y2).
          pose proof (utf8_len _ _ E). unfold normal_form in N. destruct (opt_nfc f); [destruct N as [(_ & ->)|(_ & N)]; [lia|apply (nfc_length U K) in N; lia]|subst p; lia].
  Qed.

  (** ** With an A-label *)
  Lemma canon_encodes : forall e p, zlen e <= 59 -> decodes_to e p -> rfc_encodes p (canon e) /\ zlen (canon e) <= 59.
  Proof.
    intros e p L D. assert (LE : zlen e < two64) by (unfold two64; lia). pose proof (proj2 (decodes_iff e p LE) D) as PD.
    pose proof (decode_encode e 63 63 p 59 59 ltac:(lia) ltac:(lia) LE PD L ltac:(unfold two64; lia) ltac:(lia)) as X.
    apply encode_iff in X; [tauto| |lia|lia]. destruct D as (_ & _ & D & _). eapply Forall_impl; [|exact D]. unfold permitted. intros; lia.
  Qed.
  Lemma shape_inv : forall a, zlen a <= 63 -> (exists e, a = ace e /\ alabel_shape e) \/ ((forall e, a = ace e -> ~ alabel_shape e) /\ forall u, reg_alabel U u a = Fail IDN2_INVALID_ALABEL).
  Proof.
    intros a L. unfold reg_alabel. change LABEL_MAX with 63. destruct (63 <? zlen a) eqn:L63; zb; [lia|]. destruct (zlen a <=? 4) eqn:L4; zb.
    { right. split; [|reflexivity]. intros e -> (NE & _). rewrite zlen_ace in L4. destruct e; [congruence|]. rewrite zlen_cons in L4. pose proof (zlen_nonneg _ e). lia. }
    destruct (list_eqb (firstn 4 a) ace_prefix) eqn:P; cbn [negb].
    2:{ right. split; [|reflexivity]. intros e -> _. change (firstn 4 (ace e)) with ace_prefix in P. rewrite list_eqb_refl in P. discriminate. }
    apply prefix_inv in P. remember (skipn 4 a) as t eqn:Ht. clear Ht. change (a = ace t) in P. destruct (ascii_p a) eqn:A; cbn [negb].
    - left. exists t. split; [exact P|]. rewrite P in L, L4, A. rewrite zlen_ace in L4. split; [intros E; subst t; change (zlen (@nil Z)) with 0 in L4; lia|]. split; [|exact L].
      apply ascii_p_iff in A. unfold ace in A. do 4 apply Forall_inv_tail in A. exact A.
    - right. split; [|reflexivity]. intros e -> (_ & AE & _). apply ascii_p_not, not_ascii_iff in A. apply A. unfold ace. repeat (apply Forall_cons; [lia|]). exact AE.
  Qed.
  Definition after (u : option (list Z)) (e p : list Z) : out (list Z) :=
    let* _ := match u with Some s => if list_eqb s (match u32_to_u8 p with Some b => b | None => [] end) then Ok tt else Fail IDN2_UALABEL_MISMATCH | None => Ok tt end in
    let* tmp := rest p in if list_eqb (ace e) tmp then Ok (ace e) else Fail IDN2_UALABEL_MISMATCH.
  Lemma reg_alabel_shape : forall u e, alabel_shape e -> reg_alabel U u (ace e) =
    bind (puny_decode e 252 1020) (fun p => match u32_to_u8 p with None => Fail IDN2_ENCODING_ERROR | Some _ => after u e p end).
  Proof.
    intros u e (NE & AE & L). unfold reg_alabel. change LABEL_MAX with 63. change DOMAIN_MAX with 255. pose proof L as L'. rewrite zlen_ace in L'.
    destruct (63 <? zlen (ace e)) eqn:L63; zb; [lia|]. destruct (zlen (ace e) <=? 4) eqn:L4; zb.
    { exfalso. rewrite zlen_ace in L4. destruct e; [congruence|]. rewrite zlen_cons in L4. pose proof (zlen_nonneg _ e). lia. }
    change (firstn 4 (ace e)) with ace_prefix. rewrite list_eqb_refl. cbn [negb].
    assert (ascii_p (ace e) = true) as ->. { apply ascii_p_iff. unfold ace. repeat (apply Forall_cons; [lia|]). exact AE. }
    cbn [negb]. change (skipn 4 (ace e)) with e. change (63 * 4) with 252. change (255 * 4) with 1020.
    destruct (puny_decode e 252 1020) as [p|rc| |] eqn:D; try reflexivity. cbn [bind]. unfold after. destruct (u32_to_u8 p) as [b|] eqn:B; [|reflexivity]. cbn [conv bind].
    destruct (decoded_utf8 e 252 1020 p b ltac:(lia) ltac:(lia) ltac:(lia) D B) as (SC & -> & CB & NA & LB & UB). destruct (255 + 1 <=? zlen b) eqn:LE; zb; [lia|]. cbv zeta.
    assert (RU : reg_ulabel U b 0 = rest p).
    { rewrite reg_ulabel_rest. destruct (ascii_p b) eqn:A.
      - exfalso. apply NA. apply ascii_p_iff in A. unfold ascii_string, c_string in *. rewrite Forall_forall in *. intros x I. specialize (A x I). specialize (CB x I). lia.
      - assert (u8_to_u32_nfc U b (opt_nfc 0) = Ok p) as ->; [|reflexivity]. apply nfc_conv_iff. exists p. split; [|reflexivity]. apply u8_to_u32_iff; [now apply c_string_bytes|exact UB]. }
    rewrite RU. reflexivity.
  Qed.
  Lemma reg_a_exact : forall u a f r, c_string a -> (reg_alabel U u a = Ok r <-> registers U f u (Some a) r).
  Proof.
    intros u a f r C. rewrite (reg_a_iff U u a r K C). split.
    - intros (-> & l & A & R & H). now apply (rg_alabel U f u l a).
    - intros H. inversion H as [| |u' l a' A R X E1 E2 E3]; subst. split; [reflexivity|]. exists l. auto.
  Qed.
  Lemma reg_a_refused : forall u a f, c_string a -> sound False (reg_alabel U u a) (registration_refused U f u (Some a)).
  Proof.
    intros u a f C. assert (LONG : 63 < zlen a -> reg_alabel U u a = Fail IDN2_TOO_BIG_LABEL).
    { intros L. unfold reg_alabel. change LABEL_MAX with 63. destruct (63 <? zlen a) eqn:X; zb; [reflexivity|lia]. }
    destruct (Z.lt_ge_cases 63 (zlen a)) as [L|L].
    { split; intros rc H.
      - rewrite LONG in H by exact L. assert (rc = IDN2_TOO_BIG_LABEL) as -> by congruence. now apply rr_along.
      - exists IDN2_TOO_BIG_LABEL. split; [now apply LONG|]. left.
        inversion H as [| | | | |u' a' LA E1 E2 E3|u' a' LA N E1 E2 E3|u' e rc' SH ? E1 E2 E3|u' e p SH ? ? E1 E2 E3|x e p SH ? ? ? E1 E2 E3|u' e p rc' SH ? ? ? ? E1 E2 E3|u' e p SH ? ? ? ? ? E1 E2 E3]; subst;
          try (destruct SH as (_ & _ & SH)); reflexivity || lia. }
    destruct (shape_inv a ltac:(lia)) as [(e & -> & SH)|(N & I)].
    2:{ split; intros rc H.
      - rewrite I in H. assert (rc = IDN2_INVALID_ALABEL) as -> by congruence. apply rr_shape; [lia|exact N].
      - exists IDN2_INVALID_ALABEL. split; [apply I|]. left.
        inversion H as [| | | | |u' a' LA E1 E2 E3|u' a' LA N' E1 E2 E3|u' e rc' SH ? E1 E2 E3|u' e p SH ? ? E1 E2 E3|x e p SH ? ? ? E1 E2 E3|u' e p rc' SH ? ? ? ? E1 E2 E3|u' e p SH ? ? ? ? ? E1 E2 E3]; subst;
          try (exfalso; exact (N e eq_refl SH)); reflexivity || lia. }
    rewrite reg_alabel_shape by exact SH. pose proof SH as (NE & AE & LA). rewrite zlen_ace in LA. assert (LE : zlen e < two64) by (unfold two64; lia). assert (L9 : zlen e <= 59) by lia.
    assert (NS : forall p, u32_to_u8 p = None <-> ~ Forall scalar p).
    { intros p. split; [intros X S; destruct (u32_to_u8_total p S); congruence|]. intros X. destruct (u32_to_u8 p) eqn:E; [|reflexivity]. destruct X. now apply u32_to_u8_scalar in E. }
    assert (MU : forall p b, u32_to_u8 p = Some b -> forall x, list_eqb x b = true <-> utf8 p x).
    { intros p b B x. rewrite list_eqb_iff, <- u32_to_u8_iff. split; [now intros ->|congruence]. }
    assert (RO : forall p r, decodes_to e p -> Forall scalar p -> rest p = Ok r -> r = ace (canon e)).
    { intros p r D S R. apply rest_ok in R; auto. destruct R as (_ & e' & -> & E & L'). destruct (canon_encodes e p ltac:(lia) D) as (E2 & L2).
      f_equal. pose proof (proj2 (encodes60 p e' S) (conj E L')) as X1. pose proof (proj2 (encodes60 p (canon e) S) (conj E2 L2)) as X2. congruence. }
    assert (NL : forall p rc, decodes_to e p -> ~ too_long p rc).
    { intros p rc D (T & _). destruct (canon_encodes e p ltac:(lia) D) as (E2 & L2). specialize (T _ E2). lia. }
    split.
    - intros rc H. apply bind_fail in H. destruct H as [H|(p & D & H)].
      + apply rr_undecodable; auto. apply (decode_errors e 252 1020); lia || exact LE || exact H.
      + apply decodes252 in D; [|lia]. destruct (u32_to_u8 p) as [b|] eqn:B.
        2:{ assert (rc = IDN2_ENCODING_ERROR) as -> by congruence. apply (rr_surrogate U f u e p); auto. now apply NS. }
        assert (SC : Forall scalar p) by (now apply u32_to_u8_scalar in B). unfold after in H. rewrite B in H. apply bind_fail in H. destruct H as [H|([] & M & H)].
        * destruct u as [x|]; [|discriminate]. destruct (list_eqb x b) eqn:E; [discriminate|]. assert (rc = IDN2_UALABEL_MISMATCH) as -> by congruence.
          apply (rr_mismatch U f x e p); auto. intros X. apply (MU p b B) in X. congruence.
        * assert (HU : forall x, u = Some x -> utf8 p x). { intros x ->. destruct (list_eqb x b) eqn:E; [|discriminate]. now apply (MU p b B). }
          apply bind_fail in H. destruct H as [H|(tmp & R & H)].
          -- apply rest_fail in H; auto. destruct H as [H|(_ & H)]; [now apply (rr_atest U f u e p)|]. destruct (NL p rc D H).
          -- pose proof (RO p tmp D SC R) as ->. destruct (list_eqb (ace e) (ace (canon e))) eqn:E; [discriminate|]. assert (rc = IDN2_UALABEL_MISMATCH) as -> by congruence.
             apply rest_ok in R; auto. destruct R as (R & _). apply (rr_respell U f u e p); auto. intros X.
             assert (e = canon e) as Y.
             { destruct (canon_encodes e p ltac:(lia) D) as (E2 & L2). pose proof (proj2 (encodes60 p e SC) (conj X L9)) as X1. pose proof (proj2 (encodes60 p _ SC) (conj E2 L2)) as X2. congruence. }
             rewrite <- Y in E. rewrite list_eqb_refl in E. discriminate.
    - assert (GO : forall p, decodes_to e p -> Forall scalar p -> (forall x, u = Some x -> utf8 p x) ->
        bind (puny_decode e 252 1020) (fun p => match u32_to_u8 p with None => Fail IDN2_ENCODING_ERROR | Some _ => after u e p end) =
        let* tmp := rest p in if list_eqb (ace e) tmp then Ok (ace e) else Fail IDN2_UALABEL_MISMATCH).
      { intros p D S H. rewrite (proj2 (decodes252 e p ltac:(lia)) D). cbn [bind]. destruct (u32_to_u8_total p S) as (b & B). unfold after. rewrite B.
        destruct u as [x|]; [|reflexivity]. rewrite (proj2 (MU p b B x) (H x eq_refl)). reflexivity. }
      intros rc H. inversion H as [| | | | |u' a' LA' E1 E2 E3|u' a' LA' N' E1 E2 E3|u' e0 rc' SH' UD E1 E2 E3|u' e0 p SH' D S E1 E2 E3|x e0 p SH' D S N E1 E2 E3|u' e0 p rc' SH' D S HU T E1 E2 E3|u' e0 p SH' D S HU R NR E1 E2 E3]; subst; clear H.
      + lia.
      + destruct (N' e eq_refl SH).
      + apply (decode_errors e 252 1020) in UD; [|lia|lia|exact LE]. rewrite UD. exists rc. split; [reflexivity|now left].
      + exists IDN2_ENCODING_ERROR. split; [|now left]. rewrite (proj2 (decodes252 e p ltac:(lia)) D). cbn [bind]. now rewrite (proj2 (NS p) S).
      + exists IDN2_UALABEL_MISMATCH. split; [|now left]. rewrite (proj2 (decodes252 e p ltac:(lia)) D). cbn [bind]. destruct (u32_to_u8_total p S) as (b & B). unfold after. rewrite B.
        destruct (list_eqb x b) eqn:E; [|reflexivity]. apply (MU p b B) in E. contradiction.
      + rewrite (GO p D S HU). rewrite (rest_test p rc S T). exists rc. split; [reflexivity|now left].
      + rewrite (GO p D S HU). destruct (canon_encodes e p ltac:(lia) D) as (E2 & L2).
        assert (X : rest p = Ok (ace (canon e))) by (apply rest_ok; eauto). rewrite X. cbn [bind]. exists IDN2_UALABEL_MISMATCH. split; [|now left].
        destruct (list_eqb (ace e) (ace (canon e))) eqn:E; [|reflexivity]. apply list_eqb_iff, ace_inj in E. rewrite <- E in E2. contradiction.
  Qed.
End P.
