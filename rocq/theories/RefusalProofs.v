(** Failure of idn2_lookup_u8 in terms of SpecRefusal. *)
From Verif Require Import Base PunyBase PunyRT PunyInv PunyComplete PunyExact Uenv DataTypes DataTr46 SpecUtf8 SpecPuny SpecTables SpecBidi SpecContext SpecLabel SpecNfc
  SpecLookup SpecToAscii SpecRefusal Gentr46 Tr46Map Tr46Facts Utf8 Utf8Proofs Idna Puny PunyTop Lookup LabelProofs NfcProofs MapProofs LookupProofs LookupTr46
  LookupIdem LookupTop TablesProofs StableProofs BaseTop ApiProofs ToAsciiProofs RefusalLabel Compose SpecPunyErr PunyErr PunyEncErr.

(** ** First failing tests *)
Lemma ff_keep : forall (P : Prop) c ts us rc, (P -> (first_failure ts (Some rc) <-> first_wrong us rc)) ->
  (first_failure ((true, P, c) :: ts) (Some rc) <-> first_wrong ((P, c) :: us) rc).
Proof.
  intros P c ts us rc H. split; intros X.
  - inversion X; subst; [apply fw_later; [auto|apply H; auto]|now apply fw_here].
  - inversion X; subst; [now apply ff_fail|apply ff_pass; [auto|apply H; auto]].
Qed.
Lemma ff_skip : forall (P : Prop) c ts us rc, (first_failure ts (Some rc) <-> first_wrong us rc) ->
  (first_failure ((false, P, c) :: ts) (Some rc) <-> first_wrong us rc).
Proof. intros P c ts us rc H. rewrite <- H. split; intros X; [inversion X; subst; [assumption|discriminate]|now apply ff_pass]. Qed.
Lemma ff_holds : forall (P : Prop) b c ts us rc, P -> (first_failure ts (Some rc) <-> first_wrong us rc) ->
  (first_failure ((b, P, c) :: ts) (Some rc) <-> first_wrong us rc).
Proof. intros P b c ts us rc HP H. rewrite <- H. split; intros X; [inversion X; subst; [assumption|contradiction]|now apply ff_pass]. Qed.
Lemma ff_end : forall rc, first_failure [] (Some rc) <-> first_wrong [] rc.
Proof. intros rc. split; intros X; inversion X. Qed.
Lemma fw_fun : forall ts a, first_wrong ts a -> forall b, first_wrong ts b -> a = b.
Proof. induction 1 as [P rc ts N|P r ts rc H F IH]; intros b X; inversion X; subst; auto; contradiction. Qed.
Lemma fw_not_all : forall ts rc, first_wrong ts rc -> ~ Forall (fun t => fst t) ts.
Proof. induction 1 as [P rc ts N|P r ts rc H F IH]; intros X; inversion X; subst; auto. Qed.

Section P.
  Variable U : uenv.
  Hypothesis K : nfc_ok U.

  Lemma uts46_fw : forall f ac p rc, Forall (fun c => 0 <= c) p -> ok_dot p ->
    (label_test U (tr46_what f ac) p = Fail rc <-> first_wrong (uts46_tests U (negb ac && opt_transitional f) (opt_std3 f) p) rc).
  Proof.
    intros f ac p rc F D. rewrite label_test_fail_iff by auto. rewrite tr46_what_eq. unfold label_tests_spec, uts46_tests. cbv zeta.
    destruct (negb ac && opt_transitional f), (opt_std3 f); bits; cbn [orb andb negb];
    repeat (first [apply (ff_holds (ok_dot p)); [exact D|] | apply ff_skip | apply ff_keep; intros _ | apply ff_end]).
  Qed.
  Lemma idna_fw_tr46 : forall f p rc, Forall (fun c => 0 <= c) p -> ok_dot p -> opt_nontransitional f = true -> ok_status p false (negb (opt_std3 f)) ->
    (label_test U (label_tests f) p = Fail rc <-> first_wrong (idna2008_tests U (negb (opt_std3 f)) p) rc).
  Proof.
    intros f p rc F D N S. rewrite label_test_fail_iff by auto. rewrite label_tests_eq, N. unfold label_tests_spec, idna2008_tests. cbv zeta.
    destruct (opt_std3 f); cbn [negb] in S; bits; cbn [orb andb negb];
    repeat (first [apply (ff_holds (ok_dot p)); [exact D|] | apply (ff_holds (ok_status p false _)); [exact S|] | apply ff_skip | apply ff_keep; intros _ | apply ff_end]).
  Qed.
  Lemma idna_fw_raw : forall f p rc, Forall (fun c => 0 <= c) p -> opt_nontransitional f = false ->
    (label_test U (label_tests f) p = Fail rc <-> first_wrong (idna2008_tests U false p) rc).
  Proof.
    intros f p rc F N. rewrite label_test_fail_iff by auto. rewrite label_tests_eq, N. unfold label_tests_spec, idna2008_tests. cbv zeta.
    destruct (opt_std3 f); bits; cbn [orb andb negb]; repeat (first [apply ff_skip | apply ff_keep; intros _ | apply ff_end]).
  Qed.
  Lemma fw_uts46 : forall tr std3 p rc, first_wrong (uts46_tests U tr std3 p) rc -> ~ uts46_valid U tr std3 p.
  Proof.
    intros tr std3 p rc H (A & B & C & D & E). apply (fw_not_all _ _ H). unfold uts46_tests.
    repeat (apply Forall_cons; [cbn [fst]; auto|]); [|apply Forall_nil]. unfold ok_normalises, ok_nfc in *. congruence.
  Qed.
  Lemma fw_uts46_code : forall tr std3 p rc, first_wrong (uts46_tests U tr std3 p) rc -> rc <> IDN2_OK.
  Proof.
    intros tr std3 p rc H. unfold uts46_tests in H.
    repeat match goal with X : first_wrong (_ :: _) _ |- _ => inversion X; clear X; subst; [try discriminate|] end; [destruct tr; discriminate|].
    match goal with X : first_wrong [] _ |- _ => inversion X end.
  Qed.

  (** ** Punycode *)
  (** Equal, or, where [G] allows it, two codes for lack of room. *)
  Definition sim (G : Prop) (a b : Z) : Prop := a = b \/ (G /\ In a room_codes /\ In b room_codes).
  Lemma sim_weaken : forall (G G' : Prop) a b, (G -> G') -> sim G a b -> sim G' a b.
  Proof. intros G G' a b H [->|(X & Y)]; [now left|right; auto]. Qed.
  Lemma undec_iff : forall e rc, zlen e < two64 -> (puny_decode e 63 63 = Fail rc <-> undecodable e rc).
  Proof. intros e rc L. apply decode_errors; lia || exact L. Qed.
  Lemma undec_not : forall e rc p, zlen e < two64 -> undecodable e rc -> ~ decodes_to e p.
  Proof. intros e rc p L H D. apply undec_iff in H; auto. apply decodes_iff in D; auto. congruence. Qed.
  Lemma undec_fun : forall e a b, zlen e < two64 -> undecodable e a -> undecodable e b -> a = b.
  Proof. intros e a b L A B. apply undec_iff in A, B; auto. congruence. Qed.
  Lemma scalar_permitted : forall p, Forall scalar p -> Forall permitted p.
  Proof. intros p. apply Forall_impl. unfold scalar, permitted. intros c Hc. lia. Qed.
  Lemma long_room : forall p cap rc, Forall scalar p -> 59 <= cap -> puny_encode p 59 cap = Fail rc -> too_long p rc.
  Proof.
    intros p cap rc S C E. split.
    - intros e H. destruct (Z.lt_ge_cases 59 (zlen e)) as [X|X]; [exact X|]. assert (Y : puny_encode p 59 cap = Ok e).
      { apply encode_iff; auto; [now apply scalar_u32|lia|]. split; [now apply scalar_permitted|auto]. } congruence.
    - pose proof (encode_shape p 59 cap (scalar_u32 _ S) ltac:(unfold two64; lia) C) as X. rewrite E in X.
      destruct X as [X|[(X & _)|(_ & X)]]; [now left| |destruct X; now apply scalar_permitted].
      destruct (Z.lt_ge_cases 4000000000 (zlen p)) as [G|G]; [now right|]. left.
      apply encode_errors in E; auto; [|now apply scalar_u32|lia|lia]. rewrite X in *. inversion E.
  Qed.
  Lemma room_long : forall p cap rc, Forall scalar p -> 59 <= cap -> too_long p rc -> exists rc', puny_encode p 59 cap = Fail rc' /\ sim (4000000000 < zlen p) rc rc'.
  Proof.
    intros p cap rc S C (N & I). pose proof (encode_shape p 59 cap (scalar_u32 _ S) ltac:(unfold two64; lia) C) as X.
    destruct (puny_encode p 59 cap) as [e|r| |] eqn:E; try contradiction.
    - apply encode_iff in E; auto; [|now apply scalar_u32|lia]. destruct E as (_ & E & L). specialize (N e E). lia.
    - exists r. split; [reflexivity|]. apply long_room in E; auto. destruct E as (_ & E). unfold sim, room_codes. cbn [In].
      destruct I as [->|(-> & I)], E as [->|(-> & E)]; auto 10.
  Qed.
  Lemma long_fw : forall p rc, Forall scalar p -> puny_encode p 59 59 = Fail rc -> too_long p rc.
  Proof. intros p rc S. apply long_room; auto. lia. Qed.
  Lemma long_bw : forall p rc, Forall scalar p -> too_long p rc -> exists rc', puny_encode p 59 59 = Fail rc' /\ sim (4000000000 < zlen p) rc rc'.
  Proof. intros p rc S. apply room_long; auto. lia. Qed.
  Lemma decodes_fun : forall e p q, zlen e < two64 -> decodes_to e p -> decodes_to e q -> p = q.
  Proof. intros e p q L A B. apply decodes_iff in A, B; auto. congruence. Qed.
  Lemma casecmp_false : forall a b, casecmp_eq (ace a) (ace b) = false <-> ~ same_but_case a b.
  Proof. intros a b. rewrite <- sbc_ace, <- casecmp_iff. now rewrite not_true_iff_false. Qed.
  Lemma ldhu_dec : forall p, ascii_ldhu p \/ ~ ascii_ldhu p.
  Proof.
    intros p. unfold ascii_ldhu. destruct (Forall_dec (fun c => c < 128 -> ldh_or_underscore c)) with (l := p) as [X|X]; auto.
    intros c. unfold ldh_or_underscore. destruct (Z_lt_dec c 128) as [L|L]; [|left; intros Y; contradiction].
    destruct (Z_le_dec 97 c), (Z_le_dec c 122), (Z_le_dec 65 c), (Z_le_dec c 90), (Z_le_dec 48 c), (Z_le_dec c 57), (Z.eq_dec c 45), (Z.eq_dec c 95);
      first [left; intros _; lia | right; intros Y; specialize (Y L); lia].
  Qed.

  (** ** One label, TR46 modes *)
  Definition sound (G : Prop) (m : out (list Z)) (R : Z -> Prop) : Prop :=
    (forall rc, m = Fail rc -> R rc) /\ (forall rc, R rc -> exists rc', m = Fail rc' /\ sim G rc rc').

  Lemma convert_ok : forall f s s8, ~ bad_flags f -> opt_no_tr46 f = false -> utf8 s s8 -> plain_label s8 -> zlen s < 1000000 -> passes46 U f s ->
    sound False (label U s8 63 (eff f)) (convert_refuses U f s).
  Proof.
    intros f s s8 B NT US PL LS CK.
    assert (SS : Forall scalar s /\ ~ In 0 s /\ ~ In 46 s).
    { apply u8_label with s8; auto. apply u8_to_u32_iff; auto. apply c_string_bytes. apply PL. }
    destruct SS as (S & N0 & N46).
    assert (NTR : opt_transitional f = false -> opt_nontransitional (eff f) = true) by (intros T; rewrite eff_nontransitional, NT, T by auto; reflexivity).
    assert (NF : forall p q, ok_nfc U p -> normal_form U (opt_nfc (eff f)) p q -> q = p) by (intros p q X Y; eapply normal_fixed; eauto).
    assert (LT : forall p, Forall scalar p -> ok_dot p -> ok_status p false (negb (opt_std3 f)) -> opt_transitional f = false ->
      (label_test U (label_tests (eff f)) p = Ok tt <-> idna2008_valid U (negb (opt_std3 f)) p)).
    { intros p Sp Dp Op T. rewrite lookup_pass_iff by (now apply scalar_nonneg). rewrite idna_tr46_iff, eff_std3 by auto. tauto. }
    assert (LF : forall p rc, Forall scalar p -> ok_dot p -> ok_status p false (negb (opt_std3 f)) -> opt_transitional f = false ->
      (label_test U (label_tests (eff f)) p = Fail rc <-> first_wrong (idna2008_tests U (negb (opt_std3 f)) p) rc)).
    { intros p rc Sp Dp Op T. rewrite <- (eff_std3 f). apply idna_fw_tr46; auto; [now apply scalar_nonneg|now rewrite eff_std3]. }
    assert (UL : forall p, unicode_form f s p -> zlen p < 1000000).
    { intros p [e q E R D|A]; [|exact LS]. destruct D as (_ & _ & _ & _ & D). lia. }
    (* what is known about the Unicode form *)
    assert (UF : forall p, unicode_form f s p -> Forall scalar p /\ ok_dot p /\ ok_status p false (negb (opt_std3 f)) /\ ok_nfc U p).
    { intros p [e q E R D|A].
      - destruct CK as [(X & _)|(e' & q' & E' & D' & V)]; [destruct X; exists e; exact E|]. rewrite E in E'. apply ace_inj in E'. subst e'.
        assert (LE : zlen e < two64) by (rewrite E, zlen_ace in LS; unfold two64; lia).
        assert (q' = q) as -> by (eapply decodes_fun; eauto). destruct V as (V1 & _ & _ & _ & V5).
        split; [destruct D as (_ & _ & P & _); now apply (status_scalar q _ _ P V5)|]. split; [apply ldhu_dot; now apply (decoded_ldhu e q)|auto].
      - destruct CK as [(X & V)|(e' & q' & E' & D' & V)].
        + split; [exact S|]. split; [now apply nodot_ok|]. destruct V as (V1 & _ & _ & _ & V5). split; [|exact V1]. eapply Forall_impl; [|exact V5]. cbv beta. tauto.
        + exfalso. apply not_ascii_iff in A. apply A. rewrite E'. apply ace_ascii. eapply Forall_impl; [|eapply encoded_ascii; [|exact D']]; [cbv beta; lia|].
          rewrite E', zlen_ace in LS. unfold two64. lia. }
    assert (AS : all_ascii s8 -> s8 = s) by (intros A; symmetry; eapply utf8_ascii_eq; eauto).
    assert (AE : forall e p, s = ace e -> decodes_to e p -> zlen e < two64 /\ s8 = ace e /\ all_ascii s8).
    { intros e p E D. assert (LE : zlen e < two64) by (rewrite E, zlen_ace in LS; unfold two64; lia). split; [exact LE|].
      assert (A : all_ascii s) by (rewrite E; apply ace_ascii; eapply Forall_impl; [|exact (encoded_ascii e p LE D)]; cbv beta; lia).
      apply (utf8_not_ascii _ _ US) in A. rewrite <- E. split; [now apply AS|exact A]. }
    split.
    - intros rc H. apply label_fx_iff in H; auto. destruct H as [A N L|t r E A R D|t l E A R D Sl|t l r E A R D Sl H|A N|l r A HU H].
      + rewrite <- (AS A) in *. apply cv_long; auto. now rewrite <- eff_no_roundtrip.
      + exfalso. rewrite (AS A) in E. assert (LE : zlen t < two64) by (rewrite E, zlen_ace in LS; unfold two64; lia).
        destruct CK as [(X & _)|(e' & q' & E' & D' & V)]; [apply X; exists t; exact E|]. rewrite E in E'. apply ace_inj in E'. subst e'. apply decodes_iff in D'; auto. congruence.
      + exfalso. rewrite (AS A) in E. rewrite eff_no_roundtrip in R. assert (LE : zlen t < two64) by (rewrite E, zlen_ace in LS; unfold two64; lia).
        apply decodes_iff in D; auto. apply Sl. apply (UF l). now apply (uf_alabel f s t).
      + rewrite (AS A) in E. rewrite eff_no_roundtrip in R. assert (LE : zlen t < two64) by (rewrite E, zlen_ace in LS; unfold two64; lia).
        apply decodes_iff in D; auto. assert (FO : unicode_form f s l) by now apply (uf_alabel f s t). destruct (UF l FO) as (F1 & F2 & F3 & F4).
        destruct H as [Nf Q N|p r Nf T H|p r Nf T H|p enc o Nf T H EO C|p enc Nf T H EO R' DD]; try (apply NF in Nf; [subst p|exact F4]); rewrite ?eff_transitional in *.
        * unfold ok_nfc in F4. congruence.
        * apply (cv_test U f s l); auto. now apply LF.
        * apply (cv_encode U f s l); auto; [intros X; apply LT; auto|now apply long_fw].
        * injection EO as <-. apply encodes_iff in H; auto. destruct H as (RE & ZE). rewrite (AS A), E in C. apply casecmp_false in C.
          apply (cv_alabel U f s t l enc); auto. intros X. apply LT; auto.
        * discriminate.
      + destruct (N _ US).
      + assert (l = s) as -> by (apply u8_to_u32_complete in HU; apply u8_to_u32_complete in US; congruence).
        assert (NA : not_ascii s) by (apply not_ascii_iff; intros Y; apply A; now apply (utf8_not_ascii _ _ US)).
        assert (FO : unicode_form f s s) by now apply uf_ulabel. destruct (UF s FO) as (F1 & F2 & F3 & F4).
        destruct H as [Nf Q N|p r Nf T H|p r Nf T H|p enc o Nf T H EO C|p enc Nf T H EO R' DD]; try (apply NF in Nf; [subst p|exact F4]); rewrite ?eff_transitional in *.
        * unfold ok_nfc in F4. congruence.
        * apply (cv_test U f s s); auto. now apply LF.
        * apply (cv_encode U f s s); auto; [intros X; apply LT; auto|now apply long_fw].
        * discriminate.
        * rewrite eff_no_roundtrip in R'. destruct (ldhu_dec s) as [X|X]; [destruct DD; now apply enc_decodes|].
          apply encodes_iff in H; auto. destruct H as (RE & ZE). apply (cv_ulabel U f s enc); auto. intros Y. apply LT; auto.
    - assert (G : forall rc, convert_refuses U f s rc -> exists rc', label_fx U (eff f) s8 rc' /\ sim False rc rc').
      { assert (TAIL : forall p, unicode_form f s p -> forall rc, (exists rc', (forall org, tail_fx U (eff f) org p rc') /\ sim False rc rc') -> exists rc', label_fx U (eff f) s8 rc' /\ sim False rc rc').
        { intros p FO rc (rc' & H & X). exists rc'. split; [|exact X]. pose proof (UF p FO) as (F1 & _). destruct FO as [e q E R D|A].
          - destruct (AE e q E D) as (LE & E8 & A8). apply (fx_ace U (eff f) s8 e q); auto; [now rewrite eff_no_roundtrip|now apply decodes_iff].
          - apply (fx_uni U (eff f) s8 s); auto. intros Y. apply not_ascii_iff in A. apply A. now apply (utf8_not_ascii _ _ US). }
        intros rc [A N L|p r FO T H|p r FO T H|e p e' E R D T RE ZE C|e A R T RE ZE C].
        - exists IDN2_TOO_BIG_LABEL. split; [|now left]. apply (utf8_not_ascii _ _ US) in A. pose proof (AS A) as E8. apply fx_long; [exact A|rewrite eff_no_roundtrip, E8; exact N|now rewrite E8].
        - apply (TAIL p FO). destruct (UF p FO) as (F1 & F2 & F3 & F4). exists r. split; [|now left]. intros org.
          apply (tx_test U (eff f) org p p); [now apply normal_id|now rewrite eff_transitional|now apply LF].
        - apply (TAIL p FO). destruct (UF p FO) as (F1 & F2 & F3 & F4). destruct (long_bw p r F1 H) as (r' & HE & X). exists r'. split; [|refine (sim_weaken _ _ _ _ _ X); pose proof (UL p FO); lia]. intros org.
          apply (tx_enc U (eff f) org p p); [now apply normal_id|rewrite eff_transitional; intros TT; apply LT; auto|exact HE].
        - exists IDN2_ALABEL_ROUNDTRIP_FAILED. split; [|now left]. assert (FO : unicode_form f s p) by now apply (uf_alabel f s e).
          destruct (UF p FO) as (F1 & F2 & F3 & F4). destruct (AE e p E D) as (LE & E8 & A8).
          apply (fx_ace U (eff f) s8 e p); auto; [now rewrite eff_no_roundtrip|now apply decodes_iff|].
          apply (tx_org U (eff f) (Some s8) p p e' s8); auto; [now apply normal_id|rewrite eff_transitional; intros TT; apply LT; auto|now apply encodes_iff|].
          rewrite E8. now apply casecmp_false.
        - exists IDN2_ALABEL_ROUNDTRIP_FAILED. split; [|now left]. assert (FO : unicode_form f s s) by now apply uf_ulabel.
          destruct (UF s FO) as (F1 & F2 & F3 & F4). assert (PE : puny_encode s 59 59 = Ok e) by now apply encodes_iff.
          apply (fx_uni U (eff f) s8 s); auto; [intros Y; apply not_ascii_iff in A; apply A; now apply (utf8_not_ascii _ _ US)|].
          apply (tx_rt U (eff f) None s s e); auto; [now apply normal_id|rewrite eff_transitional; intros TT; apply LT; auto|now rewrite eff_no_roundtrip|].
          intros X. apply C. apply decodes_iff in X; [|unfold two64; lia]. apply decoded_ldhu in X; [tauto|unfold two64; lia]. }
      intros rc H. destruct (G rc H) as (rc' & X & Y). exists rc'. split; [now apply label_fx_iff|exact Y].
  Qed.

  (** ** One label, modes without TR46 *)
  Lemma raw_ok : forall f b, ~ bad_flags f -> opt_no_tr46 f = true -> plain_label b -> sound (1000000000 < zlen b) (label U b 63 (eff f)) (raw_refuses U f b).
  Proof.
    intros f b B NT PL.
    assert (TR : opt_transitional f = false).
    { destruct (opt_transitional f) eqn:X; [|reflexivity]. exfalso. apply B. unfold bad_flags. tauto. }
    assert (NTR : opt_nontransitional (eff f) = false) by (rewrite eff_nontransitional, NT by auto; reflexivity).
    assert (LT : forall p, Forall scalar p -> (label_test U (label_tests (eff f)) p = Ok tt <-> idna2008_valid U false p)).
    { intros p Sp. rewrite lookup_pass_iff by (now apply scalar_nonneg). now apply idna_raw_iff. }
    assert (LF : forall p rc, Forall scalar p -> (label_test U (label_tests (eff f)) p = Fail rc <-> first_wrong (idna2008_tests U false p) rc)).
    { intros p rc Sp. apply idna_fw_raw; auto. now apply scalar_nonneg. }
    assert (NS : forall l p, Forall scalar l -> normal_form U (opt_nfc f) l p -> Forall scalar p) by (intros l p; now apply normal_scalar).
    assert (RS : forall p, raw_form f b p -> Forall scalar p) by (intros p [e q E R D Sq|q A HU]; [exact Sq|now apply utf8_scalar in HU]).
    assert (RL : forall p0 p, raw_form f b p0 -> normal_form U (opt_nfc f) p0 p -> zlen p <= 4000000000 \/ 1000000000 < zlen b).
    { intros p0 p FO Nf. destruct (Z.lt_ge_cases 1000000000 (zlen b)) as [X|X]; [now right|left].
      assert (L0 : zlen p0 <= 1000000000). { destruct FO as [e q E R D Sq|q A HU]; [destruct D as (_ & _ & _ & _ & D); lia|apply utf8_len in HU; lia]. }
      unfold normal_form in Nf. destruct (opt_nfc f); [destruct Nf as [(_ & ->)|(_ & Nf)]; [lia|apply (nfc_length U K) in Nf; lia]|subst p; lia]. }
    assert (LZ : forall t, b = ace t -> zlen t < two64) by (intros t E; destruct PL as (_ & _ & PL); rewrite E, zlen_ace in PL; lia).
    assert (TL : forall l org rc, raw_form f b l -> tail_fx U (eff f) org l rc -> (forall o, org = Some o -> o = b /\ exists e, b = ace e /\ opt_no_roundtrip f = false /\ decodes_to e l) ->
      (org = None -> not_ascii b /\ utf8 l b) -> raw_refuses U f b rc).
    { intros l org rc FO H O1 O2. pose proof (RS l FO) as Sl.
      destruct H as [Nf Q N|p r Nf T H|p r Nf T H|p enc o Nf T H EO C|p enc Nf T H EO R' DD]; rewrite ?eff_nfc, ?eff_transitional, ?eff_no_roundtrip in *.
      - now apply (rw_nfc U f b l).
      - apply (rw_test U f b l p); auto. apply LF; auto. now apply (NS l).
      - pose proof (NS _ _ Sl Nf) as Sp. apply (rw_encode U f b l p); auto; [apply LT; auto|now apply long_fw].
      - pose proof (NS _ _ Sl Nf) as Sp. destruct (O1 o EO) as (-> & e & E & R & D). apply encodes_iff in H; auto. destruct H as (RE & ZE).
        rewrite E in C. apply casecmp_false in C. apply (rw_alabel U f b e l p enc); auto. apply LT; auto.
      - pose proof (NS _ _ Sl Nf) as Sp. destruct (O2 EO) as (NA & HU). specialize (T TR). apply LT in T; auto. pose proof H as PE. apply encodes_iff in H; auto. destruct H as (RE & ZE).
        apply (rw_ulabel U f b l p enc); auto. destruct (ascii_dec p) as [X|X]; [exact X|exfalso]. apply not_ascii_iff in X. apply DD. apply enc_decodes; auto.
        destruct T as (_ & _ & _ & OD & _). unfold ok_disallowed in OD. rewrite Forall_forall in *. intros c Hc Hlt. specialize (OD c Hc). specialize (Sp c Hc).
        destruct OD as [OD|(OD & _)]; [|discriminate]. apply csv_ascii_ldh in OD; [|unfold scalar in Sp; lia]. unfold lower_or_digit, ldh_or_underscore in *. lia. }
    split.
    - intros rc H. apply label_fx_iff in H; auto. destruct H as [A N L|t r E A R D|t l E A R D Sl|t l r E A R D Sl H|A N|l r A HU H]; rewrite ?eff_no_roundtrip in *.
      + now apply rw_long.
      + apply (rw_undecodable U f b t r); auto. apply undec_iff; auto.
      + apply decodes_iff in D; auto. now apply (rw_surrogate U f b t l).
      + apply decodes_iff in D; auto. apply (TL l (Some b) r); auto; [now apply (rf_alabel f b t)| |discriminate]. intros o EO. injection EO as <-. split; [reflexivity|]. eauto.
      + apply rw_utf8; auto. now apply not_ascii_iff.
      + apply not_ascii_iff in A. apply (TL l None r); auto; [now apply rf_ulabel|]. discriminate.
    - assert (AE : forall e p, b = ace e -> decodes_to e p -> all_ascii b).
      { intros e p E D. rewrite E. apply ace_ascii. eapply Forall_impl; [|exact (encoded_ascii e p (LZ e E) D)]. cbv beta. lia. }
      assert (TAIL : forall p, raw_form f b p -> forall rc, (forall org, tail_fx U (eff f) org p rc) -> label_fx U (eff f) b rc).
      { intros p FO rc H. destruct FO as [e q E R D Sq|q A HU].
        - apply (fx_ace U (eff f) b e q); auto; [now apply (AE e q)|now rewrite eff_no_roundtrip|apply decodes_iff; auto].
        - apply (fx_uni U (eff f) b q); auto. now apply not_ascii_iff. }
      assert (G : forall rc, raw_refuses U f b rc -> exists rc', label_fx U (eff f) b rc' /\ sim (1000000000 < zlen b) rc rc').
      { intros rc [A N L|e r E A R D|e p E R D Sl|A N|p FO Nf Q N|p0 p r FO Nf H|p0 p r FO Nf V H|e p0 p e' E R D Sl Nf V RE ZE C|p0 p e A HU Nf R V RE ZE AP].
        - exists IDN2_TOO_BIG_LABEL. split; [|now left]. apply fx_long; auto. now rewrite eff_no_roundtrip.
        - apply undec_iff in D; [|exact (LZ e E)]. exists r. split; [|now left]. apply (fx_decode U (eff f) b e); auto. now rewrite eff_no_roundtrip.
        - exists IDN2_ENCODING_ERROR. split; [|now left]. apply (fx_surrogate U (eff f) b e p); auto; [now apply (AE e p)|now rewrite eff_no_roundtrip|apply decodes_iff; auto].
        - exists IDN2_ENCODING_ERROR. split; [|now left]. apply fx_utf8; auto. now apply not_ascii_iff.
        - exists IDN2_NFC. split; [|now left]. apply (TAIL p FO). intros org. apply tx_nfc; auto. now rewrite eff_nfc.
        - exists r. split; [|now left]. apply (TAIL p0 FO). intros org. apply (tx_test U (eff f) org p0 p); [now rewrite eff_nfc|now rewrite eff_transitional|]. apply LF; auto. apply (NS p0); auto.
        - assert (Sp : Forall scalar p) by (apply (NS p0); auto). destruct (long_bw p r Sp H) as (r' & HE & X). exists r'. split; [|refine (sim_weaken _ _ _ _ _ X); pose proof (RL p0 p FO Nf); lia]. apply (TAIL p0 FO). intros org.
          apply (tx_enc U (eff f) org p0 p); [now rewrite eff_nfc|intros _; now apply LT|exact HE].
        - assert (Sp : Forall scalar p) by (apply (NS p0); auto). exists IDN2_ALABEL_ROUNDTRIP_FAILED. split; [|now left].
          apply (fx_ace U (eff f) b e p0); auto; [now apply (AE e p0)|now rewrite eff_no_roundtrip|apply decodes_iff; auto|].
          apply (tx_org U (eff f) (Some b) p0 p e' b); auto; [now rewrite eff_nfc|intros _; now apply LT|now apply encodes_iff|]. rewrite E. now apply casecmp_false.
        - assert (Sp : Forall scalar p) by (apply (NS p0); auto; now apply utf8_scalar in HU). exists IDN2_ALABEL_ROUNDTRIP_FAILED. split; [|now left].
          assert (PE : puny_encode p 59 59 = Ok e) by now apply encodes_iff.
          apply (fx_uni U (eff f) b p0); auto; [now apply not_ascii_iff|].
          apply (tx_rt U (eff f) None p0 p e); auto; [now rewrite eff_nfc|intros _; now apply LT|now rewrite eff_no_roundtrip|].
          intros X. apply decodes_iff in X; [|unfold two64; lia]. apply decoded_ldhu in X; [|unfold two64; lia]. destruct X as (_ & X). apply not_ascii_iff in X. contradiction. }
      intros rc H. destruct (G rc H) as (rc' & X & Y). exists rc'. split; [now apply label_fx_iff|exact Y].
  Qed.
End P.
