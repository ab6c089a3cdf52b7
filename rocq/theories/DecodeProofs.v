(** Proofs about ToUnicode. *)
From Verif Require Import Base Uenv Puny PunyBase PunyRT PunyInv SpecPuny PunyTop PunyComplete Utf8 SpecUtf8 Utf8Proofs
  Lookup SpecLookup MapProofs LookupTr46 LookupIdem Api SpecUnicode.

Lemma ace_anycase_iff : forall s, ace_anycase s = true <-> exists t, ace_label s t.
Proof.
  intros s. unfold ace_label. split.
  - destruct s as [|a [|b [|c [|d t]]]]; try discriminate. cbn [ace_anycase].
    rewrite !andb_true_iff, !orb_true_iff, !Z.eqb_eq. intros (((A & B) & ->) & ->). exists t, a, b. auto.
  - intros (t & x & n & -> & Hx & Hn). cbn [ace_anycase]. rewrite !andb_true_iff, !orb_true_iff, !Z.eqb_eq. auto.
Qed.
Lemma ace_label_skip : forall s t, ace_label s t -> skipn 4 s = t.
Proof. intros s t (x & n & -> & _). reflexivity. Qed.

Lemma unicode_label_iff : forall s l, bytes s -> zlen s < two64 -> (unicode_label s = Ok l <-> unicode_of s l).
Proof.
  intros s l B L. unfold unicode_label. destruct (ace_anycase s) eqn:E.
  - pose proof E as E'. apply ace_anycase_iff in E. destruct E as (t & A). rewrite (ace_label_skip _ _ A).
    assert (LT : zlen t < two64) by (pose proof (skipn_zlen 4 s) as X; rewrite (ace_label_skip _ _ A) in X; lia).
    unfold LABEL_MAX. rewrite decode_iff by (auto; lia). split.
    + intros (H1 & H2 & H3 & H4 & H5). exact (uo_ace s t l A H1 H2 H3 H4 H5).
    + intros [t' l' A' H1 H2 H3 H4 H5|l' N]; [|exfalso; apply N; eauto].
      assert (t' = t) as -> by (rewrite <- (ace_label_skip _ _ A), <- (ace_label_skip _ _ A'); reflexivity). auto.
  - assert (N : ~ exists t, ace_label s t) by (intros X; apply ace_anycase_iff in X; congruence).
    destruct (u8_to_u32 s) as [m|] eqn:U; cbn [conv bind].
    + apply u8_to_u32_iff in U; auto. destruct (LABEL_MAX <? zlen m) eqn:Z; unfold LABEL_MAX in Z; zb.
      * split; [discriminate|]. intros [t' l' A'|l' _ U' Z']; [exfalso; eauto|].
        assert (l' = m) as -> by (apply u8_to_u32_iff in U, U'; auto; congruence). lia.
      * split; [intros H; injection H as <-; now apply uo_plain|]. intros [t' l' A'|l' _ U' Z']; [exfalso; eauto|].
        apply u8_to_u32_iff in U, U'; auto. congruence.
    + split; [discriminate|]. intros [t' l' A'|l' _ U' Z']; [exfalso; eauto|].
      apply u8_to_u32_iff in U'; auto. congruence.
Qed.

Lemma unicode_label_safe : forall s, bytes s -> zlen s < two64 ->
  match unicode_label s with Ok l => zlen l <= 63 | Fail rc => In rc unicode_errors /\ rc <> IDN2_TOO_BIG_DOMAIN | _ => False end.
Proof.
  intros s B L. unfold unicode_label, unicode_errors. destruct (ace_anycase s) eqn:E.
  - pose proof (skipn_zlen 4 s). pose proof (decode_safe (skipn 4 s) 63 63 ltac:(lia) ltac:(lia) ltac:(lia)) as S.
    unfold LABEL_MAX. destruct (puny_decode (skipn 4 s) 63 63); auto. tauto.
    cbn [In]. destruct S as [-> |[-> | ->]]; split; try tauto; discriminate.
  - destruct (u8_to_u32 s) as [m|]; cbn [conv bind]; [|cbn [In]; split; [tauto|discriminate]].
    destruct (LABEL_MAX <? zlen m) eqn:Z; unfold LABEL_MAX in Z; zb; [|lia]. cbn [In]; split; [tauto|discriminate].
Qed.

Lemma join_cons2 : forall x y r, join (x :: y :: r) = x ++ 46 :: join (y :: r).
Proof. reflexivity. Qed.

Lemma unicode_labels_spec : forall labels acc, labels <> [] -> Forall (fun s => bytes s /\ zlen s < two64) labels -> zlen acc <= 255 ->
  match unicode_labels labels acc with
  | Ok r => exists rs, Forall2 unicode_of labels rs /\ r = acc ++ join rs /\ zlen r <= 255
  | Fail rc => In rc unicode_errors /\ ~ (exists rs, Forall2 unicode_of labels rs /\ zlen acc + zlen (join rs) <= 255)
  | _ => False
  end.
Proof.
  induction labels as [|s rest IH]; intros acc NE F LA; [congruence|]. inversion F as [|? ? (B & L) F']; subst.
  pose proof (unicode_label_safe s B L) as S.
  assert (EMP : unicode_of [] []).
  { apply uo_plain; [|constructor|rewrite zlen_nil; lia]. intros (t & x & n & X & _). discriminate. }
  assert (GO : match
    (let dot := match rest with [] => 0 | _ => 1 end in
     let* l := unicode_label s in
     if DOMAIN_MAX <? zlen acc + zlen l + dot then Fail IDN2_TOO_BIG_DOMAIN
     else if DOMAIN_MAX + 1 <? zlen acc + zlen l then Undef
     else match rest with
          | [] => Ok (acc ++ l)
          | _ => let* acc' := put (DOMAIN_MAX + 1) (acc ++ l) 46 in unicode_labels rest acc'
          end)
    with
    | Ok r => exists rs, Forall2 unicode_of (s :: rest) rs /\ r = acc ++ join rs /\ zlen r <= 255
    | Fail rc => In rc unicode_errors /\ ~ (exists rs, Forall2 unicode_of (s :: rest) rs /\ zlen acc + zlen (join rs) <= 255)
    | _ => False
    end).
  { cbv zeta. destruct (unicode_label s) as [l|rc| |] eqn:EL; cbn [bind]; try contradiction.
    2:{ split; [tauto|]. intros (rs & FR & _). inversion FR as [|? r0 ? rs0 U0]; subst. apply unicode_label_iff in U0; auto. congruence. }
    assert (UN : forall l', unicode_of s l' -> l' = l) by (intros l' U; apply unicode_label_iff in U; auto; congruence).
    apply unicode_label_iff in EL; auto.
    change (DOMAIN_MAX + 1) with 256. change DOMAIN_MAX with 255.
    destruct rest as [|s2 rest'].
    - destruct (255 <? _) eqn:E1; zb.
      + split; [unfold unicode_errors; cbn [In]; tauto|]. intros (rs & FR & Z). inversion FR as [|? r0 ? rs0 U0 FR0]; subst.
        inversion FR0; subst. apply UN in U0. subst. cbn [join] in Z. lia.
      + destruct (256 <? _) eqn:E2; zb; [lia|]. exists [l]. split; [constructor; auto|]. split; [reflexivity|].
        rewrite zlen_app. lia.
    - destruct (255 <? _) eqn:E1; zb.
      + split; [unfold unicode_errors; cbn [In]; tauto|]. intros (rs & FR & Z). inversion FR as [|? r0 ? rs0 U0 FR0]; subst.
        apply UN in U0. subst. inversion FR0; subst. rewrite join_cons2, zlen_app, zlen_cons in Z.
        match type of Z with context [join ?x] => pose proof (zlen_nonneg _ (join x)) end. lia.
      + destruct (256 <? _) eqn:E2; zb; [lia|]. unfold put. rewrite zlen_app. destruct (_ <? 256) eqn:E3; zb; [|lia]. cbn [bind].
        specialize (IH ((acc ++ l) ++ [46]) ltac:(discriminate) F').
        assert (ZA : zlen ((acc ++ l) ++ [46]) = zlen acc + zlen l + 1) by (rewrite !zlen_app, zlen_cons, zlen_nil; lia).
        rewrite ZA in IH. specialize (IH ltac:(lia)). destruct (unicode_labels (s2 :: rest') _) as [r|rc| |]; auto.
        * destruct IH as (rs & I1 & I2 & I3). exists (l :: rs). split; [constructor; auto|]. split; [|exact I3].
          rewrite I2. inversion I1; subst. rewrite join_cons2, <- !app_assoc. reflexivity.
        * destruct IH as (I1 & I2). split; [exact I1|]. intros (rs & FR & Z). inversion FR as [|? r0 ? rs0 U0 FR0]; subst.
          apply UN in U0. subst. apply I2. exists rs0. split; auto. inversion FR0; subst. rewrite join_cons2, zlen_app, zlen_cons in Z. lia. }
  cbn [unicode_labels]. destruct s as [|c s]; [destruct rest as [|s2 rest]|]; auto.
  exists [[]]. split; [constructor; [exact EMP|constructor]|]. cbn [join]. rewrite app_nil_r. auto.
Qed.

Lemma unicode_of_nodot : forall s l, unicode_of s l -> ~ In 46 s -> ~ In 46 l.
Proof.
  intros s l [t l' A H1 H2 H3 H4 H5|l' N U Z] ND X.
  - assert (RD : zlen t < two64 \/ two64 <= zlen t) by lia.
    destruct (Z.lt_ge_cases (zlen (canon t)) two64) as [LT|GE].
    + rewrite canon_length in LT.
      assert (D : puny_decode t 63 63 = Ok l') by (apply decode_iff; auto; lia).
      pose proof (decode_safe t 63 63 ltac:(lia) ltac:(lia) LT) as S. rewrite D in S.
      destruct S as (_ & _ & _ & _ & S & _). rewrite Forall_forall in S. specialize (S 46 X ltac:(lia)).
      unfold ldh_or_underscore in S. lia.
    + (* a string this long *)
      clear RD. exfalso. clear GE.
      assert (IN : forall o n i b s0 L, rfc_steps o n i b s0 L -> 128 <= n -> 0 <= i -> In 46 L -> In 46 o).
      { intros o n i b s0 L R. induction R as [|o n i b s0 rest q b' a0 b0 L n' i' V E1 E2 E3 E4 AD R IH]; intros Hn Hi HI; [exact HI|].
        pose proof (rfc_varint_nonneg _ _ _ _ V). pose proof (zlen_nonneg _ o). pose proof (zlen_nonneg _ a0).
        assert (0 <= (i + q) / (zlen o + 1)) by (apply Z.div_pos; lia).
        specialize (IH ltac:(lia) ltac:(lia) HI). apply in_app_or in IH. rewrite E3. apply in_or_app.
        destruct IH as [?|[?|?]]; [auto|lia|auto]. }
      inversion H2 as [s0 L0 N0 R E0|bs s0 L0 NB N0 R E0]; subst.
      * exact (IN _ _ _ _ _ _ R ltac:(lia) ltac:(lia) X).
      * apply (IN _ _ _ _ _ _ R) in X; try lia.
        assert (IC : In 46 (canon t)) by (rewrite <- E0; apply in_or_app; auto).
        assert (CH : forall u, Forall ldh_or_underscore u -> In 46 (canon u) -> False).
        { induction u as [|c u IH]; intros Fu Iu; [destruct Iu|]. inversion Fu as [|? ? Hc Hu]; subst. cbn [canon] in Iu.
          destruct (existsb (Z.eqb 45) (c :: u)).
          - destruct Iu as [->|Iu]; [unfold ldh_or_underscore in Hc; lia|auto].
          - apply in_map_iff in Iu. destruct Iu as (x & Ex & Hx). rewrite Forall_forall in Fu. apply Fu in Hx.
            unfold ldh_or_underscore in Hx. unfold canon_char in Ex.
            destruct ((65 <=? x) && (x <=? 90)) eqn:E1; zb; [lia|]. destruct (x =? 95) eqn:E2; zb; lia. }
        exact (CH t H1 IC).
  - apply ND. apply (utf8_In l' s 46 U); [lia|exact X].
Qed.

Lemma split_bytes_len : forall s, c_string s -> zlen s < two64 -> Forall (fun l => bytes l /\ zlen l < two64) (split_dots s).
Proof.
  intros s C L. pose proof (plain_split s C L) as P. eapply Forall_impl; [|exact P]. intros l H. now apply plain_bytes.
Qed.

Lemma unicode_iff : forall s r, c_string s -> zlen s < two64 -> (unicode s = Ok r <-> unicode_name s r).
Proof.
  intros s r C L. unfold unicode, unicode_name.
  pose proof (unicode_labels_spec (split_dots s) [] (split_nonempty s) (split_bytes_len s C L) ltac:(rewrite zlen_nil; lia)) as S.
  assert (DOT : forall rs, Forall2 unicode_of (split_dots s) rs -> dotted rs (join rs)).
  { intros rs FR. split; [|split; [|reflexivity]].
    - intros ->. inversion FR as [E|]. now apply (split_nonempty s).
    - pose proof (split_nodot s) as N. clear - FR N. induction FR as [|x y xs ys U FR IH]; [constructor|].
      inversion N; subst. constructor; auto. exact (unicode_of_nodot x y U ltac:(auto)). }
  destruct (unicode_labels (split_dots s) []) as [o|rc| |]; cbn [bind]; try contradiction.
  - destruct S as (rs & S1 & S2 & S3). cbn [app] in S2. change DOMAIN_MAX with 255. destruct (255 <? zlen o) eqn:E; zb; [lia|]. split.
    + intros H. assert (r = join rs) as -> by congruence. exists (split_dots s), rs. split; [now apply dotted_iff|].
      split; [auto|]. split; [auto|]. rewrite <- S2. lia.
    + intros (ls & rs' & D & FR & DR & Z). apply dotted_iff in D. subst ls. f_equal.
      assert (rs' = rs) as ->.
      { pose proof (split_bytes_len s C L) as FB. clear - S1 FR FB. revert rs' FR. induction S1 as [|x y xs ys U S1 IH]; intros rs' FR; inversion FR; subst; auto.
        inversion FB as [|? ? (B1 & B2) FB']; subst.
        f_equal; [|auto]. apply unicode_label_iff in U, H1; auto. congruence. }
      destruct DR as (_ & _ & ->). exact S2.
  - split; [discriminate|]. intros (ls & rs' & D & FR & DR & Z). apply dotted_iff in D. subst ls. exfalso. apply (proj2 S).
    exists rs'. split; auto. destruct DR as (_ & _ & E). rewrite <- E, zlen_nil. lia.
Qed.

Lemma unicode_codes : forall s, c_string s -> zlen s < two64 ->
  match unicode s with Ok r => zlen r <= 255 | Fail rc => In rc unicode_errors | _ => False end.
Proof.
  intros s C L. unfold unicode.
  pose proof (unicode_labels_spec (split_dots s) [] (split_nonempty s) (split_bytes_len s C L) ltac:(rewrite zlen_nil; lia)) as S.
  destruct (unicode_labels (split_dots s) []) as [o|rc| |]; cbn [bind]; try tauto.
  destruct S as (rs & _ & _ & S). change DOMAIN_MAX with 255. destruct (255 <? zlen o) eqn:E; zb; lia.
Qed.

(** The result is again a string without zeros. *)
Lemma unicode_of_u32 : forall s l, unicode_of s l -> c_string s -> zlen s < two64 -> u32_string l.
Proof.
  intros s l H C L. unfold u32_string. pose proof H as H'. apply unicode_label_iff in H; [|now apply c_string_bytes|auto].
  destruct H' as [t l' A H1 H2 H3 H4 H5|l' N U Z].
  - assert (LT : zlen t < two64). { pose proof (skipn_zlen 4 s) as X. rewrite (ace_label_skip _ _ A) in X. lia. }
    assert (D : puny_decode t 63 63 = Ok l') by (apply decode_iff; auto; lia).
    pose proof (decode_safe t 63 63 ltac:(lia) ltac:(lia) LT) as S. rewrite D in S.
    destruct S as (_ & _ & _ & S1 & S2 & _). rewrite Forall_forall in *. intros c Hc. specialize (S1 c Hc). specialize (S2 c Hc).
    unfold permitted, ldh_or_underscore in *. destruct (Z.lt_ge_cases c 128); [specialize (S2 H0)|]; lia.
  - pose proof (utf8_c_string _ _ U C) as P. pose proof (utf8_scalar _ _ U) as Sc. rewrite Forall_forall in *.
    intros c Hc. specialize (P c Hc). specialize (Sc c Hc). unfold scalar in Sc. lia.
Qed.

Lemma unicode_u32 : forall s r, c_string s -> zlen s < two64 -> unicode s = Ok r -> u32_string r.
Proof.
  intros s r C L H. apply unicode_iff in H; auto. destruct H as (ls & rs & D & F & DR & _).
  destruct DR as (_ & _ & ->). apply join_Forall; [lia|].
  apply dotted_iff in D. subst ls. pose proof (plain_split s C L) as P.
  eapply Forall2_right; [exact F|]. cbv beta. intros a b Ia U. rewrite Forall_forall in P. destruct (P a Ia) as (P1 & _ & P3).
  exact (unicode_of_u32 a b U P1 P3).
Qed.
