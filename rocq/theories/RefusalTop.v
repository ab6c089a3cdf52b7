(** The loops over the labels and idn2_lookup_u8 itself: why a name is refused. *)
From Verif Require Import Base PunyBase PunyRT PunyInv PunyComplete PunyExact Uenv DataTypes DataTr46 SpecUtf8 SpecPuny SpecTables SpecBidi SpecContext SpecLabel SpecNfc
  SpecLookup SpecToAscii SpecRefusal Gentr46 Tr46Map Tr46Facts Utf8 Utf8Proofs Idna Puny PunyTop Lookup LabelProofs NfcProofs MapProofs LookupProofs LookupTr46
  LookupIdem LookupTop TablesProofs StableProofs BaseTop ApiProofs ToAsciiProofs Compose RefusalLabel RefusalProofs SpecPunyErr PunyErr.

(** ** The loop of idn2_lookup_u8 *)
Definition pre (ds : list (list Z)) : list Z := match ds with [] => [] | _ => join ds ++ [46] end.
Lemma join_snoc : forall ds d, join (ds ++ [d]) = pre ds ++ d.
Proof.
  intros ds d. destruct ds as [|x ds]; [reflexivity|]. rewrite join_app by discriminate. unfold pre. rewrite <- app_assoc. reflexivity.
Qed.
Lemma pre_snoc : forall ds d, pre (ds ++ [d]) = join (ds ++ [d]) ++ [46].
Proof. intros ds d. unfold pre. destruct (ds ++ [d]) eqn:E; [destruct ds; discriminate|reflexivity]. Qed.

Section L.
  Variable U : uenv.
  Variable fl : Z.
  Variable conv : list Z -> list Z -> Prop.
  Variable ref : list Z -> Z -> Prop.
  Variable rel : list Z -> list Z -> Prop.
  Variable big : Prop.
  Hypothesis conv_ok : forall s s8 d, rel s s8 -> (label U s8 63 fl = Ok d <-> conv s d).
  Hypothesis ref_ok : forall s s8, rel s s8 -> sound big (label U s8 63 fl) (ref s).

  (** [labels_refuse] with [ds0] already there. *)
  Inductive refuse_from (ds0 : list (list Z)) (ls : list (list Z)) : Z -> Prop :=
  | rfm_label : forall a s b ds rc, ls = a ++ s :: b -> Forall2 conv a ds -> zlen (join (ds0 ++ ds)) <= 253 -> ref s rc -> refuse_from ds0 ls rc
  | rfm_total : forall a s b ds d, ls = a ++ s :: b -> Forall2 conv a ds -> zlen (join (ds0 ++ ds)) <= 253 -> conv s d ->
      253 < zlen (join (ds0 ++ ds ++ [d])) -> (b = [] -> d = [] -> 254 < zlen (join (ds0 ++ ds ++ [d]))) -> refuse_from ds0 ls IDN2_TOO_BIG_DOMAIN.
  Lemma from_here : forall ds0 s ls rc, refuse_from ds0 (s :: ls) rc <->
    (zlen (join ds0) <= 253 /\ ref s rc) \/
    (exists d, conv s d /\ zlen (join ds0) <= 253 /\ 253 < zlen (join (ds0 ++ [d])) /\ (ls = [] -> d = [] -> 254 < zlen (join (ds0 ++ [d]))) /\ rc = IDN2_TOO_BIG_DOMAIN) \/
    (exists d, conv s d /\ refuse_from (ds0 ++ [d]) ls rc).
  Proof.
    intros ds0 s ls rc. split.
    - intros [a x b ds r E F Z H|a x b ds d E F Z H T1 T2]; destruct a as [|y a]; injection E as <- ->.
      + inversion F; subst. rewrite app_nil_r in Z. left. auto.
      + inversion F as [|? d1 ? ds1 C1 F1]; subst. right; right. exists d1. split; [assumption|]. apply (rfm_label _ _ a x b ds1); auto. now rewrite <- app_assoc.
      + inversion F; subst. rewrite app_nil_r in Z. cbn [app] in *. right; left. exists d. auto.
      + inversion F as [|? d1 ? ds1 C1 F1]; subst. right; right. exists d1. split; [assumption|]. apply (rfm_total _ _ a x b ds1 d); auto; rewrite <- ?app_assoc; auto.
    - intros [(Z & H)|[(d & C & Z & T1 & T2 & ->)|(d & C & H)]].
      + apply (rfm_label _ _ [] s ls []); auto. now rewrite app_nil_r.
      + apply (rfm_total _ _ [] s ls [] d); auto. now rewrite app_nil_r.
      + destruct H as [a x b ds r E F Z H|a x b ds e E F Z H T1 T2]; rewrite <- ?app_assoc in *; cbn [app] in *; subst ls.
        * apply (rfm_label _ _ (s :: a) x b (d :: ds)); auto.
        * apply (rfm_total _ _ (s :: a) x b (d :: ds) e); auto.
  Qed.
  Lemma join_le : forall ds e, zlen (join ds) <= zlen (join (ds ++ e)).
  Proof.
    intros ds e. destruct ds as [|x ds]; [unfold zlen; cbn [join length]; lia|]. destruct e as [|y e]; [rewrite app_nil_r; lia|].
    rewrite join_app by discriminate. rewrite zlen_app. pose proof (zlen_nonneg _ (46 :: join (y :: e))). lia.
  Qed.
  Lemma from_small : forall ds0 ls rc, refuse_from ds0 ls rc -> zlen (join ds0) <= 253.
  Proof. intros ds0 ls rc [a s b ds r E F Z H|a s b ds d E F Z H _ _]; pose proof (join_le ds0 ds); lia. Qed.
  Lemma labels_from : forall ls ls8, Forall2 rel ls ls8 -> forall ds0, zlen (join ds0) <= 253 -> sound big (lookup_labels U fl ls8 (pre ds0)) (refuse_from ds0 ls).
  Proof.
    induction 1 as [|s s8 ls ls8 R F IH]; intros ds0 Z0.
    - cbn [lookup_labels]. split; [intros rc H; discriminate|]. intros rc [a s b ds r E|a s b ds d E]; destruct a; discriminate.
    - assert (LE : (match ls8 with [] => true | _ => false end) = (match ls with [] => true | _ => false end)) by (destruct F; reflexivity).
      pose proof (ref_ok s s8 R) as (R1 & R2). cbn [lookup_labels]. change LABEL_MAX with 63. change DOMAIN_MAX with 255. rewrite LE.
      (* what follows a converted label *)
      assert (STEP : forall d, conv s d -> ~ (253 < zlen (join (ds0 ++ [d])) /\ (ls = [] -> d = [] -> 254 < zlen (join (ds0 ++ [d])))) ->
        (if (255 - (if (zlen d =? 0) && match ls with [] => true | _ => false end then 1 else 2)) <? zlen (pre ds0) + zlen d then Fail IDN2_TOO_BIG_DOMAIN
         else if 255 + 1 <? zlen (pre ds0) + zlen d then Undef
         else if (match ls with [] => true | _ => false end) then (if 255 <? zlen (pre ds0 ++ d) then Undef else Ok (pre ds0 ++ d))
         else if 255 <? zlen (pre ds0 ++ d) + 1 then Fail IDN2_TOO_BIG_DOMAIN
         else if 255 <? zlen ((pre ds0 ++ d) ++ [46]) then Undef
         else lookup_labels U fl ls8 ((pre ds0 ++ d) ++ [46])) =
        match ls with [] => Ok (pre ds0 ++ d) | _ => lookup_labels U fl ls8 (pre (ds0 ++ [d])) end /\ (ls <> [] -> zlen (join (ds0 ++ [d])) <= 253)).
      { intros d C T. rewrite pre_snoc, join_snoc in *. rewrite zlen_app in T. rewrite !zlen_app. change (zlen [46]) with 1.
        assert (D0 : zlen d = 0 <-> d = []) by (destruct d; [split; reflexivity|rewrite zlen_cons; pose proof (zlen_nonneg _ d); split; [lia|discriminate]]).
        destruct ls as [|x ls].
        - rewrite andb_true_r. destruct (zlen d =? 0) eqn:EZ; zb.
          + assert (ED : d = []) by now apply D0. assert (zlen (pre ds0) + zlen d <= 254).
            { destruct (Z.lt_ge_cases 254 (zlen (pre ds0) + zlen d)); [|assumption]. destruct T. split; [lia|auto]. }
            repeat match goal with |- context [?a <? ?b] => replace (a <? b) with false by (symmetry; apply Z.ltb_ge; lia) end. split; [reflexivity|congruence].
          + assert (zlen (pre ds0) + zlen d <= 253).
            { destruct (Z.lt_ge_cases 253 (zlen (pre ds0) + zlen d)); [|assumption]. destruct T. split; [lia|]. intros _ X. apply D0 in X. lia. }
            repeat match goal with |- context [?a <? ?b] => replace (a <? b) with false by (symmetry; apply Z.ltb_ge; lia) end. split; [reflexivity|congruence].
        - rewrite andb_false_r. assert (zlen (pre ds0) + zlen d <= 253).
          { destruct (Z.lt_ge_cases 253 (zlen (pre ds0) + zlen d)); [|assumption]. destruct T. split; [lia|]. intros X. discriminate. }
          repeat match goal with |- context [?a <? ?b] => replace (a <? b) with false by (symmetry; apply Z.ltb_ge; lia) end. split; [reflexivity|auto]. }
      assert (FULL : forall d, 253 < zlen (join (ds0 ++ [d])) /\ (ls = [] -> d = [] -> 254 < zlen (join (ds0 ++ [d]))) ->
        ((255 - (if (zlen d =? 0) && match ls with [] => true | _ => false end then 1 else 2)) <? zlen (pre ds0) + zlen d) = true).
      { intros d (T1 & T2). rewrite join_snoc, zlen_app in *. apply Z.ltb_lt. destruct ((zlen d =? 0) && _) eqn:X; [|lia]. apply andb_prop in X. destruct X as (X1 & X2). zb.
        assert (d = []) as -> by (destruct d; [reflexivity|rewrite zlen_cons in X1; pose proof (zlen_nonneg _ d); lia]). destruct ls; [|discriminate]. specialize (T2 eq_refl eq_refl). lia. }
      assert (DEC : forall d, (253 < zlen (join (ds0 ++ [d])) /\ (ls = [] -> d = [] -> 254 < zlen (join (ds0 ++ [d])))) \/
                     ~ (253 < zlen (join (ds0 ++ [d])) /\ (ls = [] -> d = [] -> 254 < zlen (join (ds0 ++ [d]))))).
      { intros d. destruct (Z_lt_dec 253 (zlen (join (ds0 ++ [d])))) as [A|A]; [|right; tauto]. destruct (Z_lt_dec 254 (zlen (join (ds0 ++ [d])))) as [B|B]; [left; auto|].
        destruct ls; [|left; split; [exact A|discriminate]]. destruct d; [right; intros (_ & X); apply B; auto|left; split; [exact A|discriminate]]. }
      split.
      + intros rc H. apply from_here. apply bind_fail in H. destruct H as [H|(d & Hd & H)]; [left; auto|]. apply (conv_ok s s8 d R) in Hd. destruct (DEC d) as [T|T].
        * cbv zeta in H. rewrite (FULL d T) in H. injection H as <-. right; left. exists d. tauto.
        * cbv zeta in H. destruct (STEP d Hd T) as (E & Z). rewrite E in H. destruct ls as [|x ls]; [discriminate|]. right; right. exists d. split; [exact Hd|].
          apply (IH (ds0 ++ [d])); auto. apply Z. discriminate.
      + intros rc H. apply from_here in H. destruct H as [(_ & H)|[(d & C & _ & T1 & T2 & ->)|(d & C & H)]].
        * destruct (R2 rc H) as (rc' & E & X). exists rc'. rewrite E. auto.
        * exists IDN2_TOO_BIG_DOMAIN. apply (conv_ok s s8 d R) in C. rewrite C. cbn [bind]. cbv zeta. rewrite (FULL d (conj T1 T2)). split; [reflexivity|now left].
        * pose proof (from_small _ _ _ H) as Z1. assert (T : ~ (253 < zlen (join (ds0 ++ [d])) /\ (ls = [] -> d = [] -> 254 < zlen (join (ds0 ++ [d]))))) by (intros (X & _); lia).
          destruct (STEP d C T) as (E & _). pose proof C as Hd. apply (conv_ok s s8 d R) in Hd. rewrite Hd. cbn [bind]. cbv zeta. rewrite E.
          destruct ls as [|x ls]; [destruct H as [a ? ? ? ? X|a ? ? ? ? X]; destruct a; discriminate|]. apply (IH (ds0 ++ [d])); auto.
  Qed.
  Lemma labels_sound : forall ls ls8, Forall2 rel ls ls8 -> sound big (lookup_labels U fl ls8 []) (labels_refuse conv ref ls).
  Proof.
    intros ls ls8 F. destruct (labels_from ls ls8 F [] ltac:(unfold zlen; cbn; lia)) as (A & B). split.
    - intros rc H. destruct (A rc H) as [a s b ds r E G Z X|a s b ds d E G Z X T1 T2]; cbn [app] in *; [now apply (lr_label conv ref ls a s b ds)|now apply (lr_total conv ref ls a s b ds d)].
    - intros rc H. apply B. destruct H as [a s b ds r E G Z X|a s b ds d E G Z X T1 T2]; [now apply (rfm_label [] ls a s b ds)|now apply (rfm_total [] ls a s b ds d)].
  Qed.
End L.

(** ** The tests of _tr46 *)
Section C.
  Variable U : uenv.
  Hypothesis K : nfc_ok U.
  Variable f : Z.

  Definition fit (s : list Z) : Prop := Forall scalar s /\ zlen s < 1000000 /\ ~ In 46 s.
  Lemma fit_ace : forall s e, fit s -> s = ace e -> zlen e < two64.
  Proof. intros s e (_ & L & _) ->. rewrite zlen_ace in L. unfold two64. lia. Qed.
  Lemma passes_checked : forall s, fit s -> (checked U (eff f) s <-> passes46 U f s).
  Proof. intros s (S & L & N). rewrite checked_x by auto. rewrite eff_transitional, eff_std3. reflexivity. Qed.
  Lemma passes_decodable : forall s, fit s -> passes46 U f s -> decodable s.
  Proof. intros s _ [(X & _)|(e & p & E & D & _)] e' E'; [destruct X; exists e'; exact E'|]. rewrite E in E'. apply ace_inj in E'. subst e'. eauto. Qed.
  Lemma check1_cases : forall s, fit s ->
    (exists e rc, s = ace e /\ tr46_check1 U (eff f) s = Fail rc /\ undecodable e rc) \/
    (tr46_check1 U (eff f) s = Ok (Ok tt) /\ passes46 U f s /\ decodable s) \/
    (exists rc, tr46_check1 U (eff f) s = Ok (Fail rc) /\ wrong46 U f s rc /\ decodable s).
  Proof.
    intros s Fs. pose proof Fs as (S & L & N46). unfold tr46_check1. destruct (has_ace_prefix s) eqn:X.
    - apply has_ace_iff in X. destruct X as (e & E). change (s = ace e) in E.
      assert (SK : skipn 4 s = e) by now rewrite E. rewrite SK. assert (Se : Forall scalar e) by (rewrite E in S; now do 4 apply Forall_inv_tail in S).
      destruct (u32_to_u8_total e Se) as (e8 & E8). rewrite E8. cbn [conv bind]. apply u32_to_u8_iff in E8. pose proof (utf8_len _ _ E8) as UL. rewrite E, zlen_ace in L.
      assert (L8 : zlen e8 < two64) by (unfold two64; lia). assert (Le : zlen e < two64) by (unfold two64; lia). change LABEL_MAX with 63.
      assert (SAME : forall p, decodes_to e p -> e8 = e).
      { intros p D. apply (utf8_fun e); auto. apply utf8_ascii. eapply Forall_impl; [|exact (encoded_ascii e p Le D)]. cbv beta. lia. }
      pose proof (decode_safe e8 63 63 ltac:(lia) ltac:(lia) L8) as DS. destruct (puny_decode e8 63 63) as [p|rc| |] eqn:D; try contradiction; cbn [bind].
      + pose proof (decode_ascii e8 p D L8) as A. assert (e = e8) as <- by (apply (utf8_ascii_eq e e8 E8); eapply Forall_impl; [|exact A]; cbv beta; lia).
        apply decodes_iff in D; auto. assert (DC : decodable s) by (intros e' E'; rewrite E in E'; apply ace_inj in E'; subst e'; eauto).
        assert (P0 : Forall (fun c => 0 <= c) p) by (destruct D as (_ & _ & P & _); now apply permitted_nonneg).
        assert (PD : ok_dot p) by (apply ldhu_dot; now apply (decoded_ldhu e p)).
        change (Z.lor TR46_NONTRANSITIONAL_CHECK (if has (eff f) IDN2_USE_STD3_ASCII_RULES then 0 else TEST_ALLOW_STD3_DISALLOWED)) with (tr46_what (eff f) true).
        right. destruct (label_test_verdict U p P0 (tr46_what (eff f) true)) as ([rc|] & V & _); unfold verdict in V; rewrite V; [right|left].
        * exists rc. split; [reflexivity|]. split; [|exact DC]. apply uts46_fw in V; auto. cbn [negb andb] in V. rewrite eff_std3 in V. now apply (w46_alabel U f s rc e p).
        * split; [reflexivity|]. split; [|exact DC]. apply tr46_pass_iff in V; auto. apply uts46_iff in V. cbn [negb andb] in V. rewrite eff_std3 in V. right. exists e, p. tauto.
      + left. exists e, rc. split; [exact E|]. split; [reflexivity|]. apply undec_iff in D; [|exact L8].
        destruct (ascii_dec e) as [A|A].
        * assert (e8 = e) as <-; [|exact D]. apply (utf8_fun e); auto. apply utf8_ascii. apply Forall_forall. intros c Hc. unfold all_ascii in A. rewrite Forall_forall in A, Se.
          specialize (A c Hc). specialize (Se c Hc). unfold scalar in Se. lia.
        * assert (A8 : ~ all_ascii e8) by (intros X; apply A; now apply (utf8_not_ascii _ _ E8)).
          assert (NL : forall x, ~ all_ascii x -> ~ Forall ldh_or_underscore x).
          { intros x X Y. apply X. eapply Forall_impl; [|exact Y]. unfold ldh_or_underscore. cbv beta. lia. }
          assert (rc = IDN2_PUNYCODE_BAD_INPUT) as ->.
          { inversion D; try reflexivity; exfalso; eapply NL; eauto; congruence. }
          apply df_character. now apply NL.
    - assert (NX : ~ xn s) by (intros Y; apply has_ace_iff in Y; congruence). assert (DC : decodable s) by (intros e E; destruct NX; exists e; exact E).
      assert (P0 : Forall (fun c => 0 <= c) s) by now apply scalar_nonneg. assert (PD : ok_dot s) by now apply nodot_ok.
      change (Z.lor (if has (eff f) IDN2_TRANSITIONAL then TR46_TRANSITIONAL_CHECK else TR46_NONTRANSITIONAL_CHECK)
        (if has (eff f) IDN2_USE_STD3_ASCII_RULES then 0 else TEST_ALLOW_STD3_DISALLOWED)) with (tr46_what (eff f) false).
      right. destruct (label_test_verdict U s P0 (tr46_what (eff f) false)) as ([rc|] & V & _); unfold verdict in V; rewrite V; [right|left].
      * exists rc. split; [reflexivity|]. split; [|exact DC]. apply uts46_fw in V; auto. cbn [negb andb] in V. rewrite eff_std3, eff_transitional in V. now apply w46_label.
      * split; [reflexivity|]. split; [|exact DC]. apply tr46_pass_iff in V; auto. apply uts46_iff in V. cbn [negb andb] in V. rewrite eff_std3, eff_transitional in V. left. tauto.
  Qed.
  Lemma wrong_fun : forall s a b, zlen s < 1000000 -> wrong46 U f s a -> wrong46 U f s b -> a = b.
  Proof.
    intros s a b L [X A|e p E D A] [Y B|e' p' E' D' B].
    - eapply fw_fun; eauto.
    - destruct X. exists e'. exact E'.
    - destruct Y. exists e. exact E.
    - rewrite E in E'. apply ace_inj in E'. subst e'. assert (zlen e < two64) by (rewrite E, zlen_ace in L; unfold two64; lia).
      assert (p' = p) as -> by (eapply decodes_fun; eauto). eapply fw_fun; eauto.
  Qed.
  Lemma wrong_not_passes : forall s a, zlen s < 1000000 -> wrong46 U f s a -> ~ passes46 U f s.
  Proof.
    intros s a L [X A|e p E D A] [(Y & B)|(e' & p' & E' & D' & B)].
    - now apply fw_uts46 in A.
    - destruct X. exists e'. exact E'.
    - destruct Y. exists e. exact E.
    - rewrite E in E'. apply ace_inj in E'. subst e'. assert (zlen e < two64) by (rewrite E, zlen_ace in L; unfold two64; lia).
      assert (p' = p) as -> by (eapply decodes_fun; eauto). now apply fw_uts46 in A.
  Qed.
  Lemma wrong_code : forall s a, wrong46 U f s a -> a <> IDN2_OK.
  Proof. intros s a [X A|e p E D A]; eapply fw_uts46_code; eauto. Qed.
  Lemma empty_passes : tr46_check1 U (eff f) [] = Ok (Ok tt).
  Proof.
    apply checked_iff. apply passes_checked; [split; [constructor|split; [unfold zlen; cbn; lia|intros []]]|]. left. split; [intros (t & E); discriminate|].
    assert (ok_nfc U []) by (apply (nfc_ascii U K); constructor). split; [exact H|]. split; [|split; [split|split]].
    - intros (a & b & r & E). discriminate.
    - discriminate.
    - intros r E. destruct r; discriminate.
    - intros (c & r & E & _). discriminate.
    - constructor.
  Qed.
  Lemma checks_cons : forall s ls err, tr46_checks U (eff f) (s :: ls) err =
    let* t := tr46_check1 U (eff f) s in match t with Ok _ => tr46_checks U (eff f) ls err | Fail rc => tr46_checks U (eff f) ls rc | Undef => Undef | NoFuel => NoFuel end.
  Proof. intros s ls err. cbn [tr46_checks]. destruct s as [|c s]; [|reflexivity]. destruct ls as [|l ls]; [|reflexivity]. rewrite empty_passes. reflexivity. Qed.

  Lemma checks_fw : forall ls err, Forall fit ls ->
    match tr46_checks U (eff f) ls err with
    | Ok e => (e = err /\ Forall (passes46 U f) ls) \/ (exists a s b, ls = a ++ s :: b /\ Forall decodable ls /\ wrong46 U f s e /\ Forall (passes46 U f) b)
    | Fail rc => exists a e b, ls = a ++ ace e :: b /\ Forall decodable a /\ undecodable e rc
    | _ => False
    end.
  Proof.
    intros ls err F. revert err. induction F as [|s ls Fs F IH]; intros err; [cbn [tr46_checks]; left; auto|]. rewrite checks_cons.
    destruct (check1_cases s Fs) as [(e & rc & E & -> & UD)|[(-> & PS & DC)|(rc & -> & W & DC)]]; cbn [bind].
    - exists [], e, ls. rewrite E. auto.
    - specialize (IH err). destruct (tr46_checks U (eff f) ls err) as [e|rc| |]; auto.
      + destruct IH as [(-> & A)|(a & x & b & -> & D & W & A)]; [left; auto|]. right. exists (s :: a), x, b. auto.
      + destruct IH as (a & e & b & -> & D & UD). exists (s :: a), e, b. auto.
    - specialize (IH rc). destruct (tr46_checks U (eff f) ls rc) as [e|rc'| |]; auto.
      + destruct IH as [(-> & A)|(a & x & b & -> & D & W' & A)]; right.
        * exists [], s, ls. split; [reflexivity|]. split; [|auto]. constructor; [exact DC|]. rewrite Forall_forall in *. intros x Hx. apply passes_decodable; auto.
        * exists (s :: a), x, b. auto.
      + destruct IH as (a & e & b & -> & D & UD). exists (s :: a), e, b. auto.
  Qed.
  Lemma checks_skip : forall a ls err, Forall fit a -> Forall decodable a -> exists err', tr46_checks U (eff f) (a ++ ls) err = tr46_checks U (eff f) ls err'.
  Proof.
    intros a ls err F. revert err. induction F as [|s a Fs F IH]; intros err D; [exists err; reflexivity|]. inversion D; subst. cbn [app]. rewrite checks_cons.
    destruct (check1_cases s Fs) as [(e & rc & E & _ & UD)|[(-> & PS & DC)|(rc & -> & W & DC)]]; cbn [bind]; auto.
    destruct (H1 e E) as (p & Hp). destruct (undec_not e rc p (fit_ace s e Fs E) UD Hp).
  Qed.
  Lemma checks_pass : forall b err, Forall fit b -> Forall (passes46 U f) b -> tr46_checks U (eff f) b err = Ok err.
  Proof.
    intros b err F. induction F as [|s b Fs F IH]; intros P; [reflexivity|]. inversion P; subst. rewrite checks_cons.
    assert (C : tr46_check1 U (eff f) s = Ok (Ok tt)) by (apply checked_iff; now apply passes_checked). rewrite C. cbn [bind]. auto.
  Qed.
  Lemma checks_bw : forall ls rc err, Forall fit ls -> checks_refuse U f ls rc ->
    tr46_checks U (eff f) ls err = Fail rc \/ (tr46_checks U (eff f) ls err = Ok rc /\ rc <> IDN2_OK).
  Proof.
    intros ls rc err F [a e b E D UD|a s b E D W P]; subst ls; apply Forall_app in F; destruct F as (Fa & Fb); inversion Fb as [|? ? Fs Fb']; subst.
    - destruct (checks_skip a (ace e :: b) err Fa D) as (err' & ->). rewrite checks_cons.
      destruct (check1_cases (ace e) Fs) as [(e' & rc' & E & -> & UD')|[(_ & _ & DC)|(rc' & _ & _ & DC)]].
      + apply ace_inj in E. subst e'. cbn [bind]. left. f_equal. now apply (undec_fun e rc' rc (fit_ace _ e Fs eq_refl)).
      + destruct (DC e eq_refl) as (p & Hp). destruct (undec_not e rc p (fit_ace _ e Fs eq_refl) UD Hp).
      + destruct (DC e eq_refl) as (p & Hp). destruct (undec_not e rc p (fit_ace _ e Fs eq_refl) UD Hp).
    - apply Forall_app in D. destruct D as (Da & Db). inversion Db; subst. destruct (checks_skip a (s :: b) err Fa Da) as (err' & ->). rewrite checks_cons.
      pose proof Fs as (_ & L & _).
      destruct (check1_cases s Fs) as [(e' & rc' & E & _ & UD)|[(_ & PS & _)|(rc' & -> & W' & _)]].
      + destruct (H1 e' E) as (p & Hp). destruct (undec_not e' rc' p (fit_ace s e' Fs E) UD Hp).
      + destruct (wrong_not_passes s rc L W PS).
      + assert (rc' = rc) as -> by (eapply wrong_fun; eauto). cbn [bind]. right. split; [now apply checks_pass|]. eapply wrong_code; eauto.
  Qed.
End C.

(** ** idn2_lookup_u8 *)
Section T.
  Variable U : uenv.
  Hypothesis K : nfc_ok U.

  Lemma lookup_refusal : forall src f, c_string src -> zlen src < two64 -> sound (opt_no_tr46 f = true /\ 1000000000 < zlen src) (lookup_u8 U src f) (refuses U f src).
  Proof.
    intros src f C L. unfold lookup_u8. destruct (set_flags_spec f) as [(B & E)|(B & E)]; rewrite E; cbn [bind].
    { split.
      - intros rc H. injection H as <-. now apply ref_flags.
      - intros rc H. exists IDN2_INVALID_FLAGS. split; [reflexivity|]. destruct H; try contradiction. now left. }
    rewrite has_no_tr46, eff_no_tr46. destruct (opt_no_tr46 f) eqn:NT; cbn [negb bind].
    - pose proof (plain_split src C L) as PS.
      assert (F : Forall2 (fun s s8 => s = s8 /\ plain_label s8 /\ zlen s8 <= zlen src) (split_dots src) (split_dots src)).
      { assert (LZ : Forall (fun s => zlen s <= zlen src) (split_dots src)) by (apply Forall_forall; intros s Hs; now apply split_zlen in Hs).
        clear -PS LZ. induction PS; inversion LZ; subst; constructor; auto. }
      destruct (labels_sound U (eff f) (raw_label U f) (raw_refuses U f) (fun s s8 => s = s8 /\ plain_label s8 /\ zlen s8 <= zlen src) (true = true /\ 1000000000 < zlen src)) with (ls := split_dots src) (ls8 := split_dots src) as (S1 & S2); auto.
      { intros s s8 d (-> & P & _). now apply raw_label_iff. }
      { intros s s8 (-> & P & LZ). destruct (raw_ok U K f s8 B NT P) as (R1 & R2). split; [exact R1|]. intros rc H. destruct (R2 rc H) as (rc' & E1 & E2). exists rc'. split; [exact E1|].
        refine (sim_weaken _ _ _ _ _ E2). intros X. split; [reflexivity|lia]. }
      split.
      + intros rc H. apply (ref_raw U f src (split_dots src)); auto. now apply dotted_iff.
      + intros rc H. apply S2. destruct H; try congruence; try contradiction.
        match goal with D : dotted _ src |- _ => apply dotted_iff in D; subst end. assumption.
    - rewrite tr46_eq by auto. unfold tr46_spec. rewrite eff_transitional, eff_std3. pose proof (c_string_bytes _ C) as CB.
      destruct (u8_to_u32 src) as [l|] eqn:E8.
      2:{ split.
          - intros rc H. injection H as <-. apply ref_utf8; auto. intros l X. apply u8_to_u32_iff in X; auto. congruence.
          - intros rc H. exists IDN2_ENCODING_ERROR. split; [reflexivity|].
            destruct H; try congruence; try contradiction; try (match goal with X : utf8 _ src |- _ => apply u8_to_u32_iff in X; auto; congruence end). now left. }
      apply u8_to_u32_iff in E8; auto.
      assert (LF : forall l', utf8 l' src -> l' = l) by (intros l' X; now apply (utf8_code_fun l' l src)).
      destruct (existsb disallowedb l) eqn:ED.
      { apply disallowedb_iff in ED. split.
        - intros rc H. injection H as <-. now apply (ref_disallowed U f src l).
        - intros rc H. exists IDN2_DISALLOWED. split; [reflexivity|].
          destruct H as [X|ls rc X Y|X Y Z|l' X Y Z W|l' X Y Z W|l' X Y Z W|l' n ls rc X Y Z W|l' n ls rc X Y Z W]; try congruence; try contradiction;
            [destruct (Z _ E8)|now left|..]; rewrite (LF _ Z) in W; contradiction. }
      assert (ND : ~ Exists (fun c => status_of c = Disallowed) l) by (intros X; apply disallowedb_iff in X; congruence).
      cbv zeta. set (m := uts46_map (opt_transitional f) (opt_std3 f) l).
      destruct (uts46_map_ok (opt_transitional f) (opt_std3 f) l (utf8_scalar _ _ E8) (utf8_c_string _ _ E8 C)) as (M1 & M2). fold m in M1, M2.
      destruct (255 <=? zlen m) eqn:EL; zb.
      { split.
        - intros rc H. injection H as <-. now apply (ref_long U f src l).
        - intros rc H. exists IDN2_TOO_BIG_DOMAIN. split; [reflexivity|].
          destruct H as [X|ls rc X Y|X Y Z|l' X Y Z W|l' X Y Z W|l' X Y Z W V|l' n ls rc X Y Z W V|l' n ls rc X Y Z W V]; try congruence; try contradiction;
            [destruct (Z _ E8)|rewrite (LF _ Z) in W; contradiction|now left|..]; rewrite (LF _ Z) in V; fold m in V; lia. }
      destruct (ue_nfc U m) as [n|] eqn:EN.
      2:{ split.
          - intros rc H. injection H as <-. now apply (ref_nfc U f src l).
          - intros rc H. exists IDN2_ENCODING_ERROR. split; [reflexivity|].
            destruct H as [X|ls rc X Y|X Y Z|l' X Y Z W|l' X Y Z W V|l' X Y Z W V|l' n ls rc X Y Z W V N|l' n ls rc X Y Z W V N]; try congruence; try contradiction;
              [now left|rewrite (LF _ Z) in W; contradiction|rewrite (LF _ Z) in V; fold m in V; lia|now left|..]; rewrite (LF _ Z) in N; fold m in N; congruence. }
      pose proof (nfc_scalar U K _ _ M1 EN) as N1. pose proof (nfc_length U K _ _ EN) as N2.
      assert (N3 : ~ In 0 n). { intros X. apply M2. apply (nfc_no_separator U K 0 _ n); auto. now left. }
      assert (FT : Forall fit (split_dots n)).
      { apply Forall_forall. intros s Hs. pose proof (split_Forall scalar n N1) as Q. rewrite Forall_forall in Q.
        pose proof (split_nodot n) as NDT. rewrite Forall_forall in NDT. split; [now apply Q|]. split; [apply split_zlen in Hs; lia|now apply NDT]. }
      destruct (u32_to_u8_total n N1) as (o & UO). rewrite UO. cbn [conv]. apply u32_to_u8_iff in UO.
      assert (CO : c_string o) by now apply (u32_c_string n).
      assert (LO : zlen o < two64). { pose proof (utf8_len _ _ UO). unfold two64. lia. }
      pose proof (plain_split o CO LO) as PS.
      assert (DN : dotted (split_dots n) n) by now apply dotted_iff.
      assert (SND : Forall (passes46 U f) (split_dots n) -> sound (false = true /\ 1000000000 < zlen src) (lookup_labels U (eff f) (split_dots o) []) (labels_refuse (tr46_label U f) (convert_refuses U f) (split_dots n))).
      { intros PA. apply labels_sound with (rel := fun s s8 => utf8 s s8 /\ plain_label s8 /\ fit s /\ passes46 U f s).
        - intros s s8 d (HU & P & Ft & Ps). pose proof Ft as (_ & Z & _). rewrite <- (tr46_label_iff U f s s8 d B NT HU P Z). pose proof (proj2 (passes_checked U f s Ft) Ps). tauto.
        - intros s s8 (HU & P & (_ & Z & _) & Ps). destruct (convert_ok U K f s s8 B NT HU P Z Ps) as (R1 & R2). split; [exact R1|]. intros rc H. destruct (R2 rc H) as (rc' & E1 & E2). exists rc'. split; [exact E1|].
          refine (sim_weaken _ _ _ _ _ E2). tauto.
        - pose proof (utf8_split _ _ UO) as US. clear -US PS FT PA. induction US; constructor; inversion PS; inversion FT; inversion PA; subst; auto. }
      pose proof (checks_fw U K f (split_dots n) IDN2_OK FT) as CF. split.
      + intros rc H. destruct (tr46_checks U (eff f) (split_dots n) IDN2_OK) as [e|r| |] eqn:EC; try contradiction; cbn [bind] in H.
        * destruct (e =? IDN2_OK) eqn:EE; cbn [negb bind] in H; zb.
          -- destruct CF as [(_ & PA)|(a & s & b & _ & _ & W & _)]; [|apply wrong_code in W; congruence].
             apply (ref_labels U f src l n (split_dots n)); auto. now apply (SND PA).
          -- injection H as <-. destruct CF as [(X & _)|(a & s & b & E' & D & W & PB)]; [congruence|].
             apply (ref_checks U f src l n (split_dots n)); auto. now apply (cr_wrong U f _ _ a s b).
        * injection H as <-. destruct CF as (a & e & b & E' & D & UD). apply (ref_checks U f src l n (split_dots n)); auto. now apply (cr_undecodable U f _ _ a e b).
      + intros rc H.
        destruct H as [X|ls rc X Y|X Y Z|l' X Y Z W|l' X Y Z W V|l' X Y Z W V N|l' n' ls rc X Y Z W V N DD H|l' n' ls rc X Y Z W V N DD PA H]; try congruence; try contradiction;
          [destruct (Z _ E8)|rewrite (LF _ Z) in W; contradiction|rewrite (LF _ Z) in V; fold m in V; lia|rewrite (LF _ Z) in N; fold m in N; congruence|..];
          rewrite (LF _ Z) in N; fold m in N; rewrite EN in N; injection N as <-; rewrite (dotted_fun _ _ _ DD DN) in *.
        * destruct (checks_bw U K f (split_dots n) rc IDN2_OK FT H) as [->|(-> & NZ)]; exists rc; (split; [|now left]); cbn [bind]; [reflexivity|].
          apply Z.eqb_neq in NZ. rewrite NZ. reflexivity.
        * rewrite (checks_pass U K f (split_dots n) IDN2_OK FT PA). cbn [bind]. change (negb (IDN2_OK =? IDN2_OK)) with false. cbv iota. cbn [bind]. now apply (SND PA).
  Qed.
End T.
