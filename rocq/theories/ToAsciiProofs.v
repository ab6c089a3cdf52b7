(** The exact domain and result of idn2_lookup_u8. *)
From Verif Require Import Base PunyBase PunyRT PunyInv PunyComplete PunyExact Uenv DataTypes DataTr46 SpecUtf8 SpecPuny SpecTables SpecBidi SpecContext SpecLabel SpecNfc
  SpecLookup SpecToAscii Gentr46 Tr46Map Tr46Facts Utf8 Utf8Proofs Idna Puny PunyTop Lookup LabelProofs NfcProofs MapProofs LookupProofs LookupTr46
  LookupIdem LookupTop TablesProofs StableProofs BaseTop ApiProofs.

Lemma nfc_conv_iff : forall U src nfc p, u8_to_u32_nfc U src nfc = Ok p <-> exists l, u8_to_u32 src = Some l /\ normal_form U nfc l p.
Proof.
  intros U src nfc p. unfold u8_to_u32_nfc, normal_form. destruct (u8_to_u32 src) as [l|]; cbn [conv bind].
  2:{ split; [discriminate|]. intros (l & E & _). discriminate. }
  assert (IL : forall P : list Z -> Prop, (exists l0, Some l = Some l0 /\ P l0) <-> P l).
  { intros P. split; [|eauto]. intros (l0 & E & H). injection E as <-. exact H. }
  destruct nfc.
  - destruct (isNFC_spec U l) as [(-> & Q)|(-> & Q)]; cbn [bind].
    + change (1 =? 0) with false. cbv iota. split.
      * intros E. injection E as <-. exists l. split; auto.
      * rewrite (IL (fun l0 => (qc_yes (ue_ccc U) 0 (visited false l0) /\ p = l0) \/ (~ qc_yes (ue_ccc U) 0 (visited false l0) /\ ue_nfc U l0 = Some p))).
        intros [(_ & ->)|(N & _)]; [reflexivity|contradiction].
    + change (0 =? 0) with true. cbv iota. split.
      * intros E. exists l. split; [reflexivity|]. right. split; auto. destruct (ue_nfc U l); [|discriminate]. injection E as <-. reflexivity.
      * rewrite (IL (fun l0 => (qc_yes (ue_ccc U) 0 (visited false l0) /\ p = l0) \/ (~ qc_yes (ue_ccc U) 0 (visited false l0) /\ ue_nfc U l0 = Some p))).
        intros [(N & _)|(_ & ->)]; [contradiction|reflexivity].
  - split; [intros E; injection E as <-; eauto|]. intros (l0 & E & ->). injection E as <-. reflexivity.
Qed.

Lemma normal_id : forall U nfc l, ue_nfc U l = Some l -> normal_form U nfc l l.
Proof.
  intros U nfc l H. unfold normal_form. destruct nfc; [|reflexivity].
  destruct (isNFC_spec U l) as [(_ & Q)|(_ & Q)]; auto.
Qed.
Lemma normal_fixed : forall U nfc l p, ue_nfc U l = Some l -> normal_form U nfc l p -> p = l.
Proof. intros U nfc l p H N. unfold normal_form in N. destruct nfc; [|auto]. destruct N as [(_ & E)|(_ & E)]; congruence. Qed.
Lemma normal_norm : forall U nfc l p, normal_form U nfc l p -> norm U nfc l p.
Proof.
  intros U nfc l p H. unfold normal_form in H. destruct nfc; [|subst; apply norm_id].
  destruct H as [(_ & ->)|(_ & E)]; [apply norm_id|now apply norm_nfc].
Qed.

(** label() case by case. *)
Inductive label_x (U : uenv) (f : Z) (src : list Z) : list Z -> Prop :=
| lx_plain : all_ascii src -> (opt_no_roundtrip f = false -> ~ xn src) -> zlen src <= 63 -> label_x U f src src
| lx_ace : forall t l p enc, src = ace t -> all_ascii src -> opt_no_roundtrip f = false -> puny_decode t 63 63 = Ok l -> Forall scalar l ->
    normal_form U (opt_nfc f) l p -> (opt_transitional f = false -> label_test U (label_tests f) p = Ok tt) ->
    puny_encode p 59 59 = Ok enc -> casecmp_eq src (ace enc) = true -> label_x U f src (ace enc)
| lx_uni : forall l p enc, ~ all_ascii src -> utf8 l src ->
    normal_form U (opt_nfc f) l p -> (opt_transitional f = false -> label_test U (label_tests f) p = Ok tt) ->
    puny_encode p 59 59 = Ok enc -> (opt_no_roundtrip f = false -> puny_decode enc 63 63 = Ok p) -> label_x U f src (ace enc).

Lemma label_tail_x : forall U src org f d, label_tail U src org 63 f = Ok d <->
  exists l p enc, u8_to_u32 src = Some l /\ normal_form U (opt_nfc f) l p /\ (opt_transitional f = false -> label_test U (label_tests f) p = Ok tt) /\
    puny_encode p 59 59 = Ok enc /\ d = ace enc /\
    match org with Some o => casecmp_eq o d = true | None => opt_no_roundtrip f = false -> puny_decode enc 63 63 = Ok p end.
Proof.
  intros U src org f d. split.
  - intros H. unfold label_tail in H. apply bind_ok in H. destruct H as (p & Hp & H).
    apply bind_ok in H. destruct H as (u & Ht & H). rewrite (unit_tt u) in Ht. rewrite when_true, has_transitional in Ht.
    change (63 <? 4) with false in H. cbv iota in H. apply bind_ok in H. destruct H as (enc & He & H).
    apply nfc_conv_iff in Hp. destruct Hp as (l & Hl & Hn). rewrite has_nfc in Hn. exists l, p, enc. split; [exact Hl|]. split; [exact Hn|].
    split. { intros T. apply Ht. now rewrite T. } split; [exact He|].
    destruct org as [o|].
    + destruct (casecmp_eq o _) eqn:E; [|discriminate]. injection H as <-. split; [reflexivity|exact E].
    + rewrite has_no_roundtrip in H. destruct (opt_no_roundtrip f) eqn:R; cbn [negb] in H; cbv iota in H.
      * injection H as <-. split; [reflexivity|discriminate].
      * change LABEL_MAX with 63 in H. destruct (puny_decode enc 63 63) as [l32| | |] eqn:D; try discriminate.
        destruct (list_eqb p l32) eqn:E; [|discriminate]. apply list_eqb_iff in E. subst l32. injection H as <-. split; [reflexivity|auto].
  - intros (l & p & enc & Hl & Hn & Ht & He & -> & H).
    assert (Hp : u8_to_u32_nfc U src (opt_nfc f) = Ok p) by (apply nfc_conv_iff; eauto).
    change (ace enc) with (ace_prefix ++ enc) in *. apply (label_tail_intro U src org f l p enc); auto.
    constructor; auto. now apply normal_norm.
Qed.

Lemma ascii_dec : forall s, all_ascii s \/ ~ all_ascii s.
Proof. intros s. destruct (ascii_p s) eqn:E; [left|right; intros X]; apply ascii_p_iff in E || apply ascii_p_iff in X; auto. congruence. Qed.

Lemma label_x_iff : forall U f src d, plain_label src -> (label U src 63 f = Ok d <-> label_x U f src d).
Proof.
  intros U f src d P. unfold label. split.
  - intros H. destruct (ascii_p src) eqn:A.
    + apply ascii_p_iff in A. rewrite has_no_roundtrip in H. destruct (negb (opt_no_roundtrip f) && has_ace_prefix src) eqn:X.
      * rewrite andb_true_iff, negb_true_iff, has_ace_iff in X. destruct X as (R & t & E). subst src. change LABEL_MAX with 63 in H.
        cbn [skipn] in H. apply bind_ok in H. destruct H as (l & D & H). apply bind_ok in H. destruct H as (s' & C & H).
        destruct (u32_to_u8 l) as [s0|] eqn:E0; [|discriminate]. injection C as ->.
        apply label_tail_x in H. destruct H as (l2 & p & enc & Hl & Hn & Ht & He & -> & CC).
        rewrite (u32_u8_u32 _ _ E0) in Hl. injection Hl as <-.
        apply (lx_ace U f (ace t) t l p enc); auto. now apply u32_to_u8_scalar in E0.
      * destruct (LABEL_MAX <? zlen src) eqn:L; [discriminate|]. destruct (63 <? zlen src); [discriminate|].
        injection H as <-. apply Z.ltb_ge in L. change LABEL_MAX with 63 in L. apply lx_plain; auto. intros R XN. rewrite R in X. cbn [negb andb] in X.
        apply has_ace_iff in XN. congruence.
    + apply label_tail_x in H. destruct H as (l & p & enc & Hl & Hn & Ht & He & -> & RT).
      assert (~ all_ascii src) by (intros X; apply ascii_p_iff in X; congruence).
      apply (lx_uni U f src l p enc); auto. apply u8_to_u32_iff; auto. apply c_string_bytes. apply P.
  - intros H. destruct H as [A N L|t l p enc E A R D S Hn Ht He CC|l p enc A Hu Hn Ht He RT].
    + apply (label_plain U f src); auto.
    + subst src. assert (ascii_p (ace t) = true) as -> by now apply ascii_p_iff. rewrite has_no_roundtrip, R. cbn [negb andb].
      change (has_ace_prefix (ace t)) with true. cbv iota. change (skipn 4 (ace t)) with t. change LABEL_MAX with 63. rewrite D. cbn [bind].
      destruct (u32_to_u8_total l S) as (s' & C). rewrite C. cbn [conv bind]. apply label_tail_x. exists l, p, enc.
      split; [now apply u32_u8_u32|]. auto.
    + assert (ascii_p src = false) as -> by (apply not_true_iff_false; intros X; apply ascii_p_iff in X; auto).
      apply label_tail_x. exists l, p, enc. split; [|auto]. now apply u8_to_u32_complete.
Qed.

Lemma casecmp_iff : forall a b, casecmp_eq a b = true <-> same_but_case a b.
Proof.
  induction a as [|x a IH]; intros [|y b]; cbn [casecmp_eq]; try (split; [discriminate|intros H; inversion H]).
  - split; [constructor|reflexivity].
  - rewrite andb_true_iff, Z.eqb_eq, IH, !tolower_lower. split; [intros (A & B); constructor; auto|]. intros H. inversion H; subst. auto.
Qed.
Lemma sbc_lower_map : forall a b, same_but_case a b <-> map lower a = map lower b.
Proof.
  induction a as [|x a IH]; intros [|y b]; cbn [map]; try (split; [intros H; inversion H|discriminate]).
  - split; [reflexivity|constructor].
  - split.
    + intros H. inversion H as [|? ? ? ? E H']; subst. f_equal; [exact E|now apply IH].
    + intros H. assert (E : lower x = lower y) by congruence. assert (H' : map lower a = map lower b) by congruence. constructor; [exact E|now apply IH].
Qed.
Lemma lower_lower : forall c, lower (lower c) = lower c.
Proof. intros c. apply lower_id. apply lower_not_upper. Qed.
Lemma map_lower_lower : forall l, map lower (map lower l) = map lower l.
Proof. intros l. rewrite map_map. apply map_ext. apply lower_lower. Qed.
Lemma sbc_ace : forall a b, same_but_case (ace a) (ace b) <-> same_but_case a b.
Proof.
  intros a b. rewrite !sbc_lower_map. unfold ace. cbn [map]. split; [intros H; congruence|intros ->; reflexivity].
Qed.
Lemma nodot_ok : forall p, ~ In 46 p <-> ok_dot p.
Proof.
  intros p. unfold ok_dot. rewrite Forall_forall. split; [intros H x Hx ->; auto|]. intros H X. exact (H _ X eq_refl).
Qed.
Lemma decodes_iff : forall e p, zlen e < two64 -> (puny_decode e 63 63 = Ok p <-> decodes_to e p).
Proof. intros e p H. apply decode_iff; lia. Qed.
Lemma ldhu_dot : forall p, ascii_ldhu p -> ok_dot p.
Proof. intros p H. eapply Forall_impl; [|exact H]. cbv beta. unfold ldh_or_underscore. intros c Hc ->. specialize (Hc ltac:(lia)). lia. Qed.
Lemma encodes_iff : forall p e, Forall scalar p -> (puny_encode p 59 59 = Ok e <-> rfc_encodes p e /\ zlen e <= 59).
Proof.
  intros p e S. rewrite encode_iff; [|now apply scalar_u32|lia|lia]. split; [tauto|]. intros H. split; [|exact H].
  eapply Forall_impl; [|exact S]. unfold scalar, permitted. intros c Hc. lia.
Qed.

Section P.
  Variable U : uenv.
  Hypothesis K : nfc_ok U.

  Lemma uts46_iff : forall tr std3 p, tr46_pass U tr std3 p <-> uts46_valid U tr std3 p /\ ok_dot p.
  Proof. intros. unfold tr46_pass, uts46_valid. tauto. Qed.
  Lemma idna_tr46_iff : forall f p, opt_nontransitional f = true -> (lookup_pass U f p <-> idna2008_valid U (negb (opt_std3 f)) p /\ ok_dot p /\ ok_status p false (negb (opt_std3 f))).
  Proof. intros f p H. unfold lookup_pass, idna2008_valid. rewrite H. cbn [andb]. tauto. Qed.
  Lemma idna_raw_iff : forall f p, opt_nontransitional f = false -> (lookup_pass U f p <-> idna2008_valid U false p).
  Proof. intros f p H. unfold lookup_pass, idna2008_valid. rewrite H. cbn [andb]. intuition discriminate. Qed.

  (** Surrogates are disallowed. *)
  Transparent idna_tree.
  Lemma surrogate_row : (let t := idna_tree in match tfind t 0xD800 with Some r => (r_lo r =? 0xD800) && (0xDFFF <=? r_hi r) && match r_status r with Disallowed => true | _ => false end | None => false end) = true.
  Proof. vm_compute. reflexivity. Qed.
  Opaque idna_tree.
  Transparent status_of.
  Lemma surrogate_status : forall c, 0xD800 <= c <= 0xDFFF -> status_of c = Disallowed.
  Proof.
    intros c H. pose proof surrogate_row as S. cbv zeta in S. destruct (tfind idna_tree 0xD800) as [r|] eqn:E; [|discriminate].
    apply tree_row in E. rewrite !andb_true_iff in S. destruct S as ((S1 & S2) & S3). zb.
    assert (I : In r idna_rows) by (apply find_in in E; tauto).
    assert (E2 : idna_row c = Some r) by (apply idna_row_unique; [exact I|lia]).
    unfold status_of. rewrite E2. destruct (r_status r); congruence.
  Qed.
  Opaque status_of.
  Lemma status_scalar : forall p tr std3, Forall permitted p -> ok_status p tr std3 -> Forall scalar p.
  Proof.
    intros p tr std3 H S. unfold ok_status in S. rewrite Forall_forall in *. intros c Hc. specialize (H c Hc). specialize (S c Hc).
    unfold permitted in H. unfold scalar. assert (~ (0xD800 <= c <= 0xDFFF)); [|lia]. intros X. apply surrogate_status in X.
    unfold is_std3 in S. rewrite X in S. intuition discriminate.
  Qed.

  Lemma not_ascii_iff : forall s, not_ascii s <-> ~ all_ascii s.
  Proof.
    intros s. unfold not_ascii, all_ascii. rewrite Exists_exists, Forall_forall. split.
    - intros (c & I & H) X. specialize (X c I). lia.
    - intros H. destruct (Exists_dec (fun c => 128 <= c) s (fun c => Z_le_dec 128 c)) as [E|E].
      + apply Exists_exists in E. exact E.
      + exfalso. apply H. intros x Hx. destruct (Z_lt_dec x 128); [assumption|]. exfalso. apply E. apply Exists_exists. exists x. split; [assumption|lia].
  Qed.
  Lemma utf8_not_ascii : forall s s8, utf8 s s8 -> (all_ascii s <-> all_ascii s8).
  Proof.
    intros s s8 H. split; intros A.
    - assert (s8 = s) as ->; [|exact A]. apply (utf8_fun s); auto. apply utf8_ascii. pose proof (utf8_scalar _ _ H) as S.
      unfold all_ascii in A. rewrite Forall_forall in *. intros c Hc. specialize (A c Hc). specialize (S c Hc). unfold scalar in S. lia.
    - assert (s = s8) as -> by (eapply utf8_ascii_eq; eauto). exact A.
  Qed.
  Lemma encoded_ascii : forall e p, zlen e < two64 -> decodes_to e p -> Forall (fun c => 0 < c < 128) e.
  Proof. intros e p L D. apply decodes_iff in D; auto. now apply decode_ascii in D. Qed.
  Lemma ace_ascii : forall e, all_ascii e -> all_ascii (ace e).
  Proof. intros e H. unfold ace. repeat (constructor; [lia|]). exact H. Qed.
  Lemma ace_inj : forall a b, ace a = ace b -> a = b.
  Proof. intros a b H. unfold ace in H. congruence. Qed.
  Lemma decoded_ldhu : forall e p, decodes_to e p -> zlen e < two64 -> ascii_ldhu p /\ not_ascii p.
  Proof. intros e p D L. apply decodes_iff in D; auto. destruct (decoded e p D L) as (_ & _ & _ & _ & A & B). auto. Qed.
  Lemma zlen_ace : forall e, zlen (ace e) = 4 + zlen e.
  Proof. intros e. unfold ace. rewrite !zlen_cons. lia. Qed.

  (** [checked] in terms of the specification. *)
  Lemma checked_x : forall f s, Forall scalar s -> ~ In 46 s -> zlen s < 1000000 ->
    (checked U f s <-> (~ xn s /\ uts46_valid U (opt_transitional f) (opt_std3 f) s) \/
      (exists e p, s = ace e /\ decodes_to e p /\ uts46_valid U false (opt_std3 f) p)).
  Proof.
    intros f s S N L. split.
    - intros [X T|t t8 name E U8 D T].
      + left. split; [exact X|]. apply tr46_pass_iff in T; [|now apply scalar_nonneg]. apply uts46_iff in T. tauto.
      + right. pose proof (utf8_len _ _ U8) as UL. rewrite E, zlen_app in L. change (zlen ace_prefix) with 4 in L.
        assert (L8 : zlen t8 < two64) by (unfold two64; lia).
        pose proof (decode_ascii t8 name D L8) as A. assert (t = t8) as ->.
        { apply (utf8_ascii_eq t t8 U8). eapply Forall_impl; [|exact A]. cbv beta. lia. }
        exists t8, name. split; [exact E|]. pose proof D as D'. apply decodes_iff in D'; auto. split; [exact D'|].
        apply tr46_pass_iff in T; [apply uts46_iff in T; tauto|]. destruct D' as (_ & _ & P & _). now apply permitted_nonneg.
    - intros [(X & V)|(e & p & E & D & V)].
      + apply chk_plain; [exact X|]. apply tr46_pass_iff; [now apply scalar_nonneg|]. apply uts46_iff. split; [exact V|]. now apply nodot_ok.
      + assert (LE : zlen e < two64). { rewrite E, zlen_ace in L. unfold two64. lia. }
        apply (chk_ace U f s e e p E).
        * apply utf8_ascii. eapply Forall_impl; [|exact (encoded_ascii e p LE D)]. cbv beta. lia.
        * now apply decodes_iff.
        * apply tr46_pass_iff; [destruct D as (_ & _ & P & _); now apply permitted_nonneg|]. apply uts46_iff. split; [exact V|].
          apply ldhu_dot. now apply decoded_ldhu in D.
  Qed.

  Lemma tr46_label_iff : forall f s s8 d, ~ bad_flags f -> opt_no_tr46 f = false -> utf8 s s8 -> plain_label s8 -> zlen s < 1000000 ->
    (checked U (eff f) s /\ label U s8 63 (eff f) = Ok d <-> tr46_label U f s d).
  Proof.
    intros f s s8 d B NT US PL LS.
    assert (SS : Forall scalar s /\ ~ In 0 s /\ ~ In 46 s).
    { apply u8_label with s8; auto. apply u8_to_u32_iff; auto. apply c_string_bytes. apply PL. }
    destruct SS as (S & N0 & N46). rewrite (label_x_iff U (eff f) s8 d PL). rewrite checked_x by auto. rewrite eff_transitional, eff_std3.
    assert (NTR : opt_transitional f = false -> opt_nontransitional (eff f) = true) by (intros T; rewrite eff_nontransitional, NT, T by auto; reflexivity).
    assert (LT : forall p, Forall scalar p -> ok_dot p -> ok_status p false (negb (opt_std3 f)) -> opt_transitional f = false ->
      (label_test U (label_tests (eff f)) p = Ok tt <-> idna2008_valid U (negb (opt_std3 f)) p)).
    { intros p Sp Dp Op T. rewrite lookup_pass_iff by (now apply scalar_nonneg). rewrite idna_tr46_iff, eff_std3 by auto. tauto. }
    split.
    - intros (CK & X). destruct X as [A N L|t l p enc E A R D Sl Hn Ht He CC|l p enc A Hu Hn Ht He RT].
      + assert (s = s8) as -> by (eapply utf8_ascii_eq; eauto). destruct CK as [(X & V)|(e & p & E & D & V)].
        * now apply t46_ascii.
        * rewrite eff_no_roundtrip in N. destruct (opt_no_roundtrip f) eqn:R; [|exfalso; apply (N eq_refl); rewrite E; now exists e].
          apply (t46_verbatim U f s8 e p); auto. rewrite E, zlen_ace in L. lia.
      + rewrite eff_no_roundtrip in R. assert (s = s8) as -> by (eapply utf8_ascii_eq; eauto).
        destruct CK as [(X & V)|(e & p0 & E0 & D0 & V)]; [exfalso; apply X; rewrite E; now exists t|].
        rewrite E in E0. apply ace_inj in E0. subst e.
        assert (LTt : zlen t < two64). { destruct PL as (_ & _ & PL). rewrite E, zlen_ace in PL. lia. }
        pose proof D as D1. apply decodes_iff in D1; auto.
        assert (p0 = l) as ->. { apply decodes_iff in D0; auto. congruence. }
        apply normal_fixed in Hn; [|apply V]. subst p.
        pose proof (decode_encode t 63 63 l (Z.max 59 (zlen t)) (Z.max 59 (zlen t)) ltac:(lia) ltac:(lia) LTt D ltac:(lia) ltac:(unfold two64 in *; lia) ltac:(lia)) as DE.
        pose proof (puny_encode_len _ _ _ _ He) as LL.
        apply encodes_iff in He; auto. destruct He as (RE & ZE).
        apply casecmp_iff in CC. rewrite E, sbc_ace in CC. pose proof (proj1 (sbc_lower_map _ _) CC) as CM.
        assert (ZT : zlen t = zlen enc). { rewrite <- (zlen_map _ _ lower t), CM, zlen_map. reflexivity. }
        rewrite Z.max_l in DE by lia. apply encodes_iff in DE; auto. destruct DE as (RE2 & _).
        assert (EC : enc = canon t).
        { assert (P1 : puny_encode l 59 59 = Ok enc) by (apply encodes_iff; auto). assert (P2 : puny_encode l 59 59 = Ok (canon t)) by (apply encodes_iff; auto; rewrite canon_length; split; auto; lia). congruence. }
        (* the encoding has no upper-case letters *)
        assert (EL : map lower enc = enc).
        { apply map_lower_id. destruct RE as ((ds & F & Ee) & _). rewrite Ee. apply Forall_app. split.
          - destruct V as (_ & _ & _ & _ & OS). unfold ok_status in OS. rewrite Forall_forall in *. intros c Hc. apply filter_In in Hc. destruct Hc as (Hc & Hlt). zb.
            assert (0 <= c) by (specialize (Sl c Hc); unfold scalar in Sl; lia). apply (status_fixed false false (opt_std3 f) c ltac:(lia)). now apply OS.
          - apply Forall_app. split; [destruct (zlen (ascii_part l) =? 0); repeat constructor; lia|].
            eapply Forall_impl; [|exact F]. unfold lower_or_digit. intros c Hc. lia. }
        assert (ET : enc = map lower t) by congruence. rewrite ET.
        apply (t46_alabel U f s8 t l); auto; try lia; try congruence.
        intros T. apply LT; auto; [|apply V|now apply Ht; rewrite eff_transitional].
        apply ldhu_dot. now apply decoded_ldhu in D1.
      + rewrite eff_no_roundtrip in RT. rewrite eff_transitional in Ht. assert (l = s) as ->.
        { apply u8_to_u32_complete in Hu. apply u8_to_u32_complete in US. congruence. }
        destruct CK as [(X & V)|(e & p0 & E0 & D0 & V)].
        * apply normal_fixed in Hn; [|apply V]. subst p.
          assert (V2 : ok_status s false (negb (opt_std3 f))). { destruct V as (_ & _ & _ & _ & OS). eapply Forall_impl; [|exact OS]. cbv beta. tauto. }
          pose proof (puny_encode_len _ _ _ _ He) as LL.
          apply encodes_iff in He; auto. destruct He as (RE & ZE). apply t46_ulabel; auto.
          -- apply not_ascii_iff. intros Y. apply A. now apply (utf8_not_ascii _ _ US).
          -- intros T. apply LT; auto. now apply nodot_ok.
          -- intros R. specialize (RT R). apply decodes_iff in RT; [|unfold two64; lia]. apply decoded_ldhu in RT; [tauto|unfold two64; lia].
        * exfalso. apply A. apply (utf8_not_ascii _ _ US). rewrite E0. apply ace_ascii. eapply Forall_impl; [|eapply encoded_ascii; [|exact D0]]; [cbv beta; lia|].
          rewrite E0, zlen_ace in LS. unfold two64. lia.
    - intros X. destruct X as [A N V L|e p E LE D V R CE T|e p E LE D V R|e A N V T AL RE ZE].
      + split; [left; auto|]. assert (s8 = s) as ->.
        { apply (utf8_fun s); auto. apply utf8_ascii. unfold all_ascii in A. rewrite Forall_forall in *. intros c Hc. specialize (A c Hc). specialize (S c Hc). unfold scalar in S. lia. }
        apply lx_plain; auto.
      + assert (L64 : zlen e < two64) by (unfold two64; lia). pose proof (encoded_ascii e p L64 D) as AE.
        assert (AA : all_ascii (ace e)) by (apply ace_ascii; eapply Forall_impl; [|exact AE]; cbv beta; lia).
        assert (s8 = s) as ->.
        { apply (utf8_fun s); auto. apply utf8_ascii. rewrite E. unfold all_ascii in AA. rewrite E in S. rewrite Forall_forall in *. intros c Hc. specialize (AA c Hc). specialize (S c Hc). unfold scalar in S. lia. }
        split; [right; eauto|]. rewrite E.
        assert (SP : Forall scalar p). { destruct D as (_ & _ & P & _). destruct V as (_ & _ & _ & _ & OS). now apply (status_scalar p _ _ P OS). }
        assert (DD : puny_decode e 63 63 = Ok p) by now apply decodes_iff.
        pose proof (decode_encode e 63 63 p 59 59 ltac:(lia) ltac:(lia) L64 DD LE ltac:(unfold two64; lia) ltac:(lia)) as DE. rewrite CE in DE.
        apply (lx_ace U (eff f) (ace e) e p p); auto.
        * now rewrite eff_no_roundtrip.
        * apply normal_id. apply V.
        * rewrite eff_transitional. intros TT. apply LT; auto; [|apply V]. apply ldhu_dot. now apply decoded_ldhu in D.
        * apply casecmp_iff. apply sbc_ace. apply sbc_lower_map. now rewrite map_lower_lower.
      + assert (L64 : zlen e < two64) by (unfold two64; lia). pose proof (encoded_ascii e p L64 D) as AE.
        assert (AA : all_ascii (ace e)) by (apply ace_ascii; eapply Forall_impl; [|exact AE]; cbv beta; lia).
        assert (s8 = s) as ->.
        { apply (utf8_fun s); auto. apply utf8_ascii. rewrite E. unfold all_ascii in AA. rewrite E in S. rewrite Forall_forall in *. intros c Hc. specialize (AA c Hc). specialize (S c Hc). unfold scalar in S. lia. }
        split; [right; eauto|]. apply lx_plain; [now rewrite E|rewrite eff_no_roundtrip; congruence|rewrite E, zlen_ace; lia].
      + split; [left; auto|].
        assert (V2 : ok_status s false (negb (opt_std3 f))). { destruct V as (_ & _ & _ & _ & OS). eapply Forall_impl; [|exact OS]. cbv beta. tauto. }
        assert (PE : puny_encode s 59 59 = Ok e) by (apply encodes_iff; auto).
        apply (lx_uni U (eff f) s8 s s e); auto.
        * intros Y. apply not_ascii_iff in A. apply A. now apply (utf8_not_ascii _ _ US).
        * apply normal_id. apply V.
        * rewrite eff_transitional. intros TT. apply LT; auto. now apply nodot_ok.
        * rewrite eff_no_roundtrip. intros R. apply enc_decodes; auto. exact (AL R).
  Qed.

  Lemma raw_label_iff : forall f b d, ~ bad_flags f -> opt_no_tr46 f = true -> plain_label b ->
    (label U b 63 (eff f) = Ok d <-> raw_label U f b d).
  Proof.
    intros f b d B NT PL. rewrite (label_x_iff U (eff f) b d PL).
    assert (TR : opt_transitional f = false).
    { destruct (opt_transitional f) eqn:X; [|reflexivity]. exfalso. apply B. unfold bad_flags. tauto. }
    assert (NTR : opt_nontransitional (eff f) = false) by (rewrite eff_nontransitional, NT by auto; reflexivity).
    assert (LT : forall p, Forall scalar p -> (label_test U (label_tests (eff f)) p = Ok tt <-> idna2008_valid U false p)).
    { intros p Sp. rewrite lookup_pass_iff by (now apply scalar_nonneg). now apply idna_raw_iff. }
    assert (NS : forall l p, Forall scalar l -> normal_form U (opt_nfc f) l p -> Forall scalar p).
    { intros l p Sl H. apply (norm_scalar U (opt_nfc f) l p); auto. now apply normal_norm. }
    split.
    - intros X. destruct X as [A N L|t l p enc E A R D Sl Hn Ht He CC|l p enc A Hu Hn Ht He RT].
      + rewrite eff_no_roundtrip in N. now apply raw_ascii.
      + rewrite eff_no_roundtrip in R. rewrite eff_nfc in Hn. rewrite eff_transitional in Ht. pose proof (NS _ _ Sl Hn) as Sp.
        assert (LTt : zlen t < two64). { destruct PL as (_ & _ & PL). rewrite E, zlen_ace in PL. lia. }
        apply decodes_iff in D; auto. apply encodes_iff in He; auto. destruct He as (RE & ZE). apply casecmp_iff in CC. rewrite E, sbc_ace in CC.
        apply (raw_alabel U f b t l p enc); auto. apply LT; auto.
      + rewrite eff_no_roundtrip in RT. rewrite eff_nfc in Hn. rewrite eff_transitional in Ht. pose proof (NS _ _ (utf8_scalar _ _ Hu) Hn) as Sp.
        apply encodes_iff in He; auto. destruct He as (RE & ZE). apply (raw_ulabel U f b l p enc); auto.
        * now apply not_ascii_iff.
        * apply LT; auto.
        * intros R. specialize (RT R). apply decodes_iff in RT; [|unfold two64; lia]. apply decoded_ldhu in RT; [tauto|unfold two64; lia].
    - intros X. destruct X as [A N L|e p0 p e' E R D Sl Hn V RE ZE CC|p0 p e A Hu Hn V NA RE ZE].
      + apply lx_plain; auto. now rewrite eff_no_roundtrip.
      + assert (LTt : zlen e < two64). { destruct PL as (_ & _ & PL). rewrite E, zlen_ace in PL. lia. }
        pose proof (NS _ _ Sl Hn) as Sp.
        apply (lx_ace U (eff f) b e p0 p e'); auto.
        * rewrite E. apply ace_ascii. eapply Forall_impl; [|exact (encoded_ascii e p0 LTt D)]. cbv beta. lia.
        * now rewrite eff_no_roundtrip.
        * now apply decodes_iff.
        * now rewrite eff_nfc.
        * intros _. now apply LT.
        * now apply encodes_iff.
        * apply casecmp_iff. rewrite E. now apply sbc_ace.
      + pose proof (NS _ _ (utf8_scalar _ _ Hu) Hn) as Sp. assert (PE : puny_encode p 59 59 = Ok e) by now apply encodes_iff.
        apply (lx_uni U (eff f) b p0 p e); auto.
        * now apply not_ascii_iff.
        * now rewrite eff_nfc.
        * intros _. now apply LT.
        * rewrite eff_no_roundtrip. intros R. apply enc_decodes; auto; [|now apply NA].
          destruct V as (_ & _ & _ & OD & _). unfold ok_disallowed in OD. rewrite Forall_forall in *. intros c Hc Hlt. specialize (OD c Hc). specialize (Sp c Hc).
          destruct OD as [OD|(OD & _)]; [|discriminate]. apply csv_ascii_ldh in OD; [|unfold scalar in Sp; lia]. unfold lower_or_digit, ldh_or_underscore in *. lia.
  Qed.

  Lemma lookup_exact : forall src f r, c_string src -> zlen src < two64 -> (lookup_u8 U src f = Ok r <-> accepts U f src r).
  Proof.
    intros src f r C L. unfold accepts. split.
    - intros H. pose proof (lookup_inv U src f r K C L H) as I. destruct I as (B & o & ds & P & F & -> & Z). split; [exact B|].
      destruct (prepared_ok _ _ _ _ P C L) as (C' & L'). pose proof (ds_dotted U _ o ds K C' L' F) as D.
      pose proof (plain_split o C' L') as PS. rewrite Forall_forall in PS.
      destruct P as [N|o l n N T]; rewrite eff_no_tr46 in N; rewrite N.
      + exists (split_dots src), ds. split; [now apply dotted_iff|]. split; [|auto]. eapply Forall2_impl_in; [exact F|]. intros b d Ib Hd.
        apply (raw_label_iff f b d); auto.
      + exists l, n, (split_dots n), ds. split; [apply (k_src _ _ _ _ _ _ T)|]. split.
        { intros Y. apply disallowedb_iff in Y. rewrite (k_allowed _ _ _ _ _ _ T) in Y. discriminate. }
        rewrite <- (eff_transitional f), <- (eff_std3 f). split; [apply (k_len _ _ _ _ _ _ T)|]. split; [apply (k_nfc _ _ _ _ _ _ T)|].
        split; [now apply dotted_iff|]. split; [|auto].
        pose proof (k_checked _ _ _ _ _ _ T) as CK. rewrite Forall_forall in CK.
        eapply Forall2_compose; [exact (utf8_split _ _ (k_out _ _ _ _ _ _ T))|exact F|]. cbv beta. intros s s8 d Is I8 HU HL.
        apply (tr46_label_iff f s s8 d); auto. pose proof (split_zlen n s Is). pose proof (k_nlen _ _ _ _ _ _ T). lia.
    - intros (B & H). destruct (opt_no_tr46 f) eqn:N.
      + destruct H as (ls & ds & D1 & F & D2 & Z). apply dotted_iff in D1. subst ls. destruct D2 as (_ & _ & ->).
        pose proof (plain_split src C L) as PS. rewrite Forall_forall in PS.
        apply (lookup_intro U src f src ds); auto.
        * apply prep_raw. now rewrite eff_no_tr46.
        * eapply Forall2_impl_in; [exact F|]. intros b d Ib Hd. apply raw_label_iff; auto.
      + destruct H as (l & n & ls & ds & H1 & H2 & H3 & H4 & D1 & F & D2 & Z). apply dotted_iff in D1. subst ls. destruct D2 as (_ & _ & ->).
        destruct (uts46_map_ok (opt_transitional f) (opt_std3 f) l (utf8_scalar _ _ H1) (utf8_c_string _ _ H1 C)) as (M1 & M2).
        pose proof (nfc_scalar U K _ _ M1 H4) as N1. pose proof (nfc_length U K _ _ H4) as N2.
        assert (N3 : ~ In 0 n). { intros X. apply M2. apply (nfc_no_separator U K 0 _ n); auto. now left. }
        destruct (u32_to_u8_total n N1) as (o & UO). apply u32_to_u8_iff in UO.
        pose proof (utf8_split _ _ UO) as US.
        assert (CO : c_string o). { apply (u32_c_string n); auto. }
        assert (LO : zlen o < two64). { pose proof (utf8_len _ _ UO). unfold two64. lia. }
        pose proof (plain_split o CO LO) as PS. rewrite Forall_forall in PS.
        assert (G : Forall2 (fun s8 d => exists s, In s (split_dots n) /\ checked U (eff f) s /\ label U s8 63 (eff f) = Ok d) (split_dots o) ds /\
                    Forall (checked U (eff f)) (split_dots n)).
        { assert (LS : forall s, In s (split_dots n) -> zlen s < 1000000) by (intros s Is; pose proof (split_zlen n s Is); lia).
          clear - US F PS LS B N. revert ds F. induction US as [|s s8 ss ss8 HU US IH]; intros ds F; inversion F as [|? d ? ds' HF F']; subst; [split; constructor|].
          destruct (IH (fun x Hx => PS x (or_intror Hx)) (fun x Hx => LS x (or_intror Hx)) ds' F') as (I1 & I2).
          pose proof (proj2 (tr46_label_iff f s s8 d B N HU (PS s8 (or_introl eq_refl)) (LS s (or_introl eq_refl))) HF) as (CK & LB).
          split; constructor; auto.
          - exists s. split; [now left|auto].
          - eapply Forall2_impl_in; [exact I1|]. cbv beta. intros a b _ (x & Ix & R). exists x. split; [now right|exact R]. }
        destruct G as (G1 & G2).
        apply (lookup_intro U src f o ds); auto.
        * apply (prep_tr46 U (eff f) src o l n); [now rewrite eff_no_tr46|]. constructor; auto; rewrite ?eff_transitional, ?eff_std3; auto; try lia.
          apply not_true_iff_false. intros X. apply disallowedb_iff in X. contradiction.
        * eapply Forall2_impl_in; [exact G1|]. cbv beta. intros a b _ (x & _ & _ & R). exact R.
  Qed.
End P.
