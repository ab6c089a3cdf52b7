(** The testing half of _tr46, and idn2_lookup_u8 as a whole: safety and shape
    of the result. *)
From Verif Require Import Base PunyBase Uenv DataTypes SpecUtf8 SpecPuny SpecTables SpecLabel SpecNfc SpecLookup Gentr46 Tr46Map
  Tr46Facts Utf8 Utf8Proofs Idna Puny PunyTop Lookup LabelProofs NfcProofs MapProofs LookupProofs.

(** ** set_default_flags *)
Definition eff (f : Z) : Z := if opt_no_tr46 f || opt_transitional f then f else Z.lor f 8.
Lemma opt_lor8 : forall f n, 0 <= n -> bit (Z.lor f 8) n = bit f n || (n =? 3).
Proof.
  intros f n H. rewrite Z.lor_spec. change 8 with (2 ^ 3). rewrite Z.pow2_bits_eqb by lia. f_equal. apply Z.eqb_sym.
Qed.
Lemma eff_other : forall f n, 0 <= n -> n <> 3 -> bit (eff f) n = bit f n.
Proof.
  intros f n H N. unfold eff. destruct (_ || _); [reflexivity|]. rewrite opt_lor8 by auto.
  destruct (n =? 3) eqn:E; [apply Z.eqb_eq in E; lia|apply orb_false_r].
Qed.
Lemma eff_nfc : forall f, opt_nfc (eff f) = opt_nfc f. Proof. intros f. apply eff_other; lia. Qed.
Lemma eff_transitional : forall f, opt_transitional (eff f) = opt_transitional f. Proof. intros f. apply eff_other; lia. Qed.
Lemma eff_std3 : forall f, opt_std3 (eff f) = opt_std3 f. Proof. intros f. apply eff_other; lia. Qed.
Lemma eff_no_tr46 : forall f, opt_no_tr46 (eff f) = opt_no_tr46 f. Proof. intros f. apply eff_other; lia. Qed.
Lemma eff_no_roundtrip : forall f, opt_no_roundtrip (eff f) = opt_no_roundtrip f. Proof. intros f. apply eff_other; lia. Qed.
Lemma eff_nontransitional : forall f, ~ bad_flags f -> opt_nontransitional (eff f) = negb (opt_no_tr46 f || opt_transitional f).
Proof.
  intros f B. unfold eff. destruct (opt_no_tr46 f || opt_transitional f) eqn:E.
  - destruct (opt_nontransitional f) eqn:N; [|reflexivity]. exfalso. apply B. unfold bad_flags. apply orb_true_iff in E. tauto.
  - unfold opt_nontransitional. rewrite opt_lor8 by lia. apply orb_true_r.
Qed.
Lemma set_flags_spec : forall f,
  (bad_flags f /\ set_default_flags f = Fail IDN2_INVALID_FLAGS) \/ (~ bad_flags f /\ set_default_flags f = Ok (eff f)).
Proof.
  intros f. unfold set_default_flags, bad_flags, eff. rewrite !has_lor, has_transitional, has_nontransitional, has_roundtrip, has_no_roundtrip, has_no_tr46.
  destruct (opt_transitional f), (opt_nontransitional f), (opt_roundtrip f), (opt_no_roundtrip f), (opt_no_tr46 f); cbn [andb orb negb];
    first [left; split; [intuition congruence|reflexivity] | right; split; [intuition congruence|reflexivity]].
Qed.

(** ** The tests of _tr46 *)
Lemma ff_code : forall ts r, first_failure ts r -> forall rc, r = Some rc -> In rc (map snd ts).
Proof.
  induction 1 as [|sel P rc0 ts r S F IH|sel P rc0 ts S NP]; intros rc E; [discriminate| |].
  - right. now apply IH.
  - injection E as <-. now left.
Qed.
Lemma label_test_code : forall U what l rc, Forall (fun c => 0 <= c) l -> label_test U what l = Fail rc -> rc <> IDN2_OK.
Proof.
  intros U what l rc F H. apply label_test_fail_iff in H; auto. pose proof (ff_code _ _ H rc eq_refl) as I.
  unfold label_tests_spec in I. cbv zeta in I. cbn [map snd] in I. cbn [In] in I. intros ->.
  decompose [or] I; try discriminate; try contradiction. destruct (bit what 12); discriminate.
Qed.
Definition tr46_what (flags : Z) (ace : bool) : Z :=
  Z.lor (if negb ace && has flags IDN2_TRANSITIONAL then TR46_TRANSITIONAL_CHECK else TR46_NONTRANSITIONAL_CHECK)
        (if has flags IDN2_USE_STD3_ASCII_RULES then 0 else TEST_ALLOW_STD3_DISALLOWED).
(** [checked U flags s]: the label [s] passes the tests of _tr46. *)
Inductive checked (U : uenv) (flags : Z) (s : list Z) : Prop :=
| chk_plain : ~ xn s -> label_test U (tr46_what flags false) s = Ok tt -> checked U flags s
| chk_ace : forall t t8 name, s = ace_prefix ++ t -> utf8 t t8 -> puny_decode t8 63 63 = Ok name ->
    label_test U (tr46_what flags true) name = Ok tt -> checked U flags s.
Lemma checked_iff : forall U flags s, tr46_check1 U flags s = Ok (Ok tt) <-> checked U flags s.
Proof.
  intros U flags s. unfold tr46_check1. split.
  - destruct (has_ace_prefix s) eqn:E.
    + apply has_ace_iff in E. destruct E as (t & ->). cbn [skipn]. intros H. apply bind_ok in H. destruct H as (t8 & C & H).
      destruct (u32_to_u8 t) as [t8'|] eqn:C2; [|discriminate]. injection C as ->. apply u32_to_u8_iff in C2.
      apply bind_ok in H. destruct H as (name & D & H). injection H as H. change LABEL_MAX with 63 in D.
      apply (chk_ace U flags _ t t8 name); auto.
    + intros H. injection H as H. apply chk_plain; [|exact H]. intros X. apply has_ace_iff in X. congruence.
  - intros [N T|t t8 name -> C D T].
    + destruct (has_ace_prefix s) eqn:E; [apply has_ace_iff in E; contradiction|]. unfold tr46_what in T. cbn [negb andb] in T. now rewrite T.
    + change (has_ace_prefix (ace_prefix ++ t)) with true. change (skipn 4 (ace_prefix ++ t)) with t. cbv iota.
      apply u32_to_u8_iff in C. rewrite C. cbn [conv bind]. change LABEL_MAX with 63. rewrite D. cbn [bind].
      unfold tr46_what in T. cbn [negb andb] in T. now rewrite T.
Qed.
Lemma utf8_len : forall l s, utf8 l s -> zlen l <= zlen s <= 4 * zlen l.
Proof.
  induction 1 as [|c bs l s Hc Hs IH]; [rewrite !zlen_nil; lia|]. rewrite zlen_app, zlen_cons. 
  assert (1 <= zlen bs <= 4) by (destruct Hc; rewrite ?zlen_cons, zlen_nil; lia). lia.
Qed.
Lemma skipn_zlen : forall n (s : list Z), zlen (skipn n s) <= zlen s.
Proof. intros n s. unfold zlen. rewrite skipn_length. lia. Qed.

Lemma check1_safe : forall U flags s, Forall scalar s -> zlen s < 1000000 ->
  safe (tr46_check1 U flags s) /\
  (forall t, tr46_check1 U flags s = Ok t -> safe t /\ (forall rc, t = Fail rc -> rc <> IDN2_OK)).
Proof.
  intros U flags s S L. unfold tr46_check1.
  assert (G : forall what l, Forall (fun c => 0 <= c) l ->
    safe (label_test U what l) /\ (forall rc, label_test U what l = Fail rc -> rc <> IDN2_OK)).
  { intros what l N. split; [now apply label_test_safe|]. intros rc. now apply label_test_code. }
  destruct (has_ace_prefix s).
  - destruct (u32_to_u8 (skipn 4 s)) as [t8|] eqn:C; cbn [conv bind]; [|split; [exact I|intros t H; discriminate]].
    apply u32_to_u8_iff in C. pose proof (utf8_len _ _ C). pose proof (skipn_zlen 4 s). change LABEL_MAX with 63.
    pose proof (decode_safe t8 63 63 ltac:(lia) ltac:(lia) ltac:(unfold two64; lia)) as D.
    destruct (puny_decode t8 63 63) as [name| | |]; cbn [bind]; try contradiction; (split; [exact I|intros t HT; try discriminate]).
    injection HT as <-. apply G. destruct D as (_ & _ & _ & D & _). eapply Forall_impl; [|exact D]. unfold permitted. intros; lia.
  - split; [exact I|]. intros t H. injection H as <-. apply G. now apply scalar_nonneg.
Qed.
Lemma nfc_empty : forall U, nfc_ok U -> ue_nfc U [] = Some [].
Proof. intros U K. apply (nfc_ascii U K). constructor. Qed.
Lemma checked_empty : forall U flags, nfc_ok U -> checked U flags [].
Proof.
  intros U flags K. apply chk_plain; [intros (t & H); discriminate|]. apply label_test_ok_iff; [constructor|].
  unfold label_tests_spec. cbv zeta. repeat (apply Forall_cons; [cbn [passes]; intros _|]); [..|apply Forall_nil];
  first [ apply Forall_nil | exact (nfc_empty U K) | unfold ok_normalises; rewrite nfc_empty by auto; discriminate
        | intros (a & b & r & H); discriminate | split; [discriminate|intros r H; destruct r; discriminate]
        | intros (a & r & H & _); discriminate | intros pre c post H; destruct pre; discriminate
        | left; intros H; inversion H ].
Qed.

(** The test loop: OK exactly when all labels pass. *)
Lemma checks_spec : forall U flags ls err, nfc_ok U -> Forall (fun s => Forall scalar s /\ zlen s < 1000000) ls ->
  safe (tr46_checks U flags ls err) /\
  (tr46_checks U flags ls err = Ok IDN2_OK <-> err = IDN2_OK /\ Forall (checked U flags) ls).
Proof.
  intros U flags ls err K F. revert err. induction F as [|s ls (S & L) F IH]; intros err.
  - cbn [tr46_checks]. split; [exact I|]. split; [intros H; injection H as ->; auto|intros (-> & _); reflexivity].
  - destruct (check1_safe U flags s S L) as (C1 & C2). 
    assert (G : (s <> [] \/ ls <> []) -> safe (tr46_checks U flags (s :: ls) err) /\
      (tr46_checks U flags (s :: ls) err = Ok IDN2_OK <-> err = IDN2_OK /\ Forall (checked U flags) (s :: ls))).
    { intros N. assert (E : tr46_checks U flags (s :: ls) err =
        (let* t := tr46_check1 U flags s in
            match t with
            | Ok _ => tr46_checks U flags ls err
            | Fail rc => tr46_checks U flags ls rc
            | Undef => Undef
            | NoFuel => NoFuel
            end)).
      { cbn [tr46_checks]. destruct s, ls; try reflexivity. destruct N; congruence. }
      rewrite E. rewrite Forall_cons_iff, <- checked_iff.
      destruct (tr46_check1 U flags s) as [t| | |] eqn:ET; try contradiction; cbn [bind].
      - destruct (C2 t eq_refl) as (T1 & T2). destruct t as [[]|rc| |]; try contradiction.
        + destruct (IH err) as (I1 & I2). split; [exact I1|]. rewrite I2. tauto.
        + destruct (IH rc) as (I1 & I2). split; [exact I1|]. rewrite I2. split.
          * intros (-> & _). exfalso. now apply (T2 IDN2_OK).
          * intros (_ & H & _). discriminate.
      - split; [exact I|]. split; [discriminate|]. intros (_ & H & _). discriminate. }
    destruct s as [|c s]; [|apply G; left; discriminate]. destruct ls as [|l2 ls]; [|apply G; right; discriminate].
    cbn [tr46_checks]. split; [exact I|]. split.
    + intros H. injection H as ->. split; [reflexivity|]. constructor; auto. now apply checked_empty.
    + intros (-> & _). reflexivity.
Qed.

(** ** What _tr46 delivers *)
Lemma split_zlen : forall s l, In l (split_dots s) -> zlen l <= zlen s.
Proof.
  intros s l H. rewrite <- (join_split s). revert l H. generalize (split_dots s). clear s.
  induction l as [|x ls IH]; intros l H; [destruct H|]. destruct ls as [|y ls].
  - destruct H as [->|[]]. cbn [join]. lia.
  - rewrite join_cons, zlen_app, zlen_cons. pose proof (zlen_nonneg _ (join (y :: ls))). pose proof (zlen_nonneg _ x). destruct H as [->|H]; [lia|].
    apply IH in H. lia.
Qed.
Record tr46_ok (U : uenv) (flags : Z) (src o l n : list Z) : Prop := {
  k_src : utf8 l src;
  k_allowed : existsb disallowedb l = false;
  k_len : zlen (uts46_map (opt_transitional flags) (opt_std3 flags) l) < 255;
  k_nfc : ue_nfc U (uts46_map (opt_transitional flags) (opt_std3 flags) l) = Some n;
  k_checked : Forall (checked U flags) (split_dots n);
  k_out : utf8 n o;
  k_scalar : Forall scalar n;
  k_nul : ~ In 0 n;
  k_nlen : zlen n < 1020
}.
Lemma tr46_spec_safe : forall U src flags, nfc_ok U -> c_string src ->
  safe (tr46_spec U src flags) /\ (forall o, tr46_spec U src flags = Ok o <-> exists l n, tr46_ok U flags src o l n).
Proof.
  intros U src flags K C. unfold tr46_spec. pose proof (c_string_bytes _ C) as B.
  assert (UQ : forall l1 l2, utf8 l1 src -> utf8 l2 src -> l1 = l2).
  { intros l1 l2 H1 H2. apply u8_to_u32_iff in H1, H2; auto. congruence. }
  destruct (u8_to_u32 src) as [l|] eqn:E.
  2:{ split; [exact I|]. intros o. split; [discriminate|]. intros (l & n & [K1 _ _ _ _ _ _ _ _]). apply u8_to_u32_iff in K1; auto. congruence. }
  apply u8_to_u32_iff in E; auto.
  destruct (existsb disallowedb l) eqn:ED.
  { split; [exact I|]. intros o. split; [discriminate|]. intros (l2 & n & [K1 K2 _ _ _ _ _ _ _]). rewrite (UQ l2 l K1 E) in K2. congruence. }
  cbv zeta. set (m := uts46_map (opt_transitional flags) (opt_std3 flags) l).
  destruct (uts46_map_ok (opt_transitional flags) (opt_std3 flags) l (utf8_scalar _ _ E) (utf8_c_string _ _ E C)) as (M1 & M2). fold m in M1, M2.
  destruct (255 <=? zlen m) eqn:EL.
  { split; [exact I|]. intros o. split; [discriminate|]. intros (l2 & n & [K1 _ K3 _ _ _ _ _ _]). rewrite (UQ l2 l K1 E) in K3. fold m in K3. apply Z.leb_le in EL. lia. }
  apply Z.leb_gt in EL.
  destruct (ue_nfc U m) as [n|] eqn:EN.
  2:{ split; [exact I|]. intros o. split; [discriminate|]. intros (l2 & n & [K1 _ _ K4 _ _ _ _ _]). rewrite (UQ l2 l K1 E) in K4. fold m in K4. congruence. }
  pose proof (nfc_scalar U K _ _ M1 EN) as N1. pose proof (nfc_length U K _ _ EN) as N2.
  assert (N3 : ~ In 0 n). { intros H. apply M2. apply (nfc_no_separator U K 0 m n); auto. now left. }
  assert (F : Forall (fun s => Forall scalar s /\ zlen s < 1000000) (split_dots n)).
  { apply Forall_forall. intros s Hs. split; [|apply split_zlen in Hs; lia].
    pose proof (split_Forall scalar n N1) as Q. rewrite Forall_forall in Q. now apply Q. }
  destruct (checks_spec U flags (split_dots n) IDN2_OK K F) as (S1 & S2).
  assert (U2 : exists o, u32_to_u8 n = Some o) by now apply u32_to_u8_total. destruct U2 as (o0 & U2).
  destruct (tr46_checks U flags (split_dots n) IDN2_OK) as [err| | |] eqn:ET; try contradiction; cbn [bind].
  - destruct (err =? IDN2_OK) eqn:EE; cbn [negb].
    + apply Z.eqb_eq in EE. subst err. rewrite U2. cbn [conv]. split; [exact I|]. intros o. apply u32_to_u8_iff in U2. split.
      * intros H. injection H as <-. exists l, n. constructor; auto. { now apply S2. } lia.
      * intros (l2 & n2 & [K1 _ _ K4 _ K6 _ _ _]). rewrite (UQ l2 l K1 E) in K4. fold m in K4. rewrite EN in K4. injection K4 as <-.
        apply u32_to_u8_iff in K6, U2. rewrite K6 in U2. congruence.
    + split; [exact I|]. intros o. split; [discriminate|]. intros (l2 & n2 & [K1 _ _ K4 K5 _ _ _ _]). rewrite (UQ l2 l K1 E) in K4. fold m in K4.
      rewrite EN in K4. injection K4 as <-. apply Z.eqb_neq in EE. assert (Ok err = Ok IDN2_OK) as X by (apply S2; auto). congruence.
  - split; [exact I|]. intros o. split; [discriminate|]. intros (l2 & n2 & [K1 _ _ K4 K5 _ _ _ _]). rewrite (UQ l2 l K1 E) in K4. fold m in K4.
    rewrite EN in K4. injection K4 as <-. assert (Fail rc = Ok IDN2_OK) as X by (apply S2; auto). discriminate.
Qed.
Lemma tr46_ok_iff : forall U src flags o, nfc_ok U -> c_string src -> (tr46 U src flags = Ok o <-> exists l n, tr46_ok U flags src o l n).
Proof. intros U src flags o K C. rewrite tr46_eq by auto. now apply tr46_spec_safe. Qed.
Lemma tr46_safe : forall U src flags, nfc_ok U -> c_string src -> safe (tr46 U src flags).
Proof. intros U src flags K C. rewrite tr46_eq by auto. now apply tr46_spec_safe. Qed.
Lemma tr46_out : forall U flags src o l n, tr46_ok U flags src o l n -> c_string o /\ zlen o < 4080.
Proof.
  intros U flags src o l n [_ _ _ _ _ K6 _ K8 K9]. split.
  - pose proof (utf8_bytes _ _ K6) as B. apply Forall_forall. intros b Hb. rewrite <- (utf8_In _ _ 0 K6) in K8 by lia.
    unfold bytes in B. rewrite Forall_forall in B. specialize (B b Hb). assert (b <> 0) by congruence. lia.
  - pose proof (utf8_len _ _ K6). lia.
Qed.

(** ** The whole function *)
Lemma plain_split : forall s, c_string s -> zlen s < two64 -> Forall plain_label (split_dots s).
Proof.
  intros s C L. pose proof (split_Forall _ s C) as F. pose proof (split_nodot s) as N. apply Forall_forall. intros l Hl.
  rewrite Forall_forall in F, N. pose proof (split_zlen s l Hl). split; [now apply F|]. split; [now apply N|]. lia.
Qed.
Lemma plain_bytes : forall l, plain_label l -> bytes l /\ zlen l < two64.
Proof. intros l (A & _ & B). split; [now apply c_string_bytes|exact B]. Qed.

(** The string whose labels are converted. *)
Inductive prepared (U : uenv) (flags : Z) (src : list Z) : list Z -> Prop :=
| prep_raw : opt_no_tr46 flags = true -> prepared U flags src src
| prep_tr46 : forall o l n, opt_no_tr46 flags = false -> tr46_ok U flags src o l n -> prepared U flags src o.
Lemma prepared_ok : forall U flags src o, prepared U flags src o -> c_string src -> zlen src < two64 -> c_string o /\ zlen o < two64.
Proof.
  intros U flags src o [E|o' l n E T] C L; [auto|]. apply tr46_out in T. split; [tauto|]. unfold two64 in *. lia.
Qed.

Lemma lookup_inv : forall U src flags r, nfc_ok U -> c_string src -> zlen src < two64 -> lookup_u8 U src flags = Ok r ->
  ~ bad_flags flags /\ exists o ds, prepared U (eff flags) src o /\
    Forall2 (fun l d => label U l 63 (eff flags) = Ok d) (split_dots o) ds /\ r = join ds /\
    (zlen r <= 253 \/ (zlen r = 254 /\ last ds [] = [])).
Proof.
  intros U src flags r K C L H. unfold lookup_u8 in H. destruct (set_flags_spec flags) as [(B & E)|(B & E)]; rewrite E in H; [discriminate|].
  split; [exact B|]. cbn [bind] in H. apply bind_ok in H. destruct H as (o & Ho & H). exists o.
  apply lookup_labels_inv in H; [|apply split_nonempty]. destruct H as (ds & F & Er & Z). exists ds. cbn [app] in Er.
  split; [|auto]. rewrite has_no_tr46 in Ho. destruct (opt_no_tr46 (eff flags)) eqn:T; cbn [negb] in Ho.
  - injection Ho as <-. now apply prep_raw.
  - apply tr46_ok_iff in Ho; auto. destruct Ho as (l & n & Ho). eapply prep_tr46; eauto.
Qed.
Lemma lookup_intro : forall U src flags o ds, nfc_ok U -> c_string src -> ~ bad_flags flags -> prepared U (eff flags) src o ->
  Forall2 (fun l d => label U l 63 (eff flags) = Ok d) (split_dots o) ds ->
  (zlen (join ds) <= 253 \/ (zlen (join ds) = 254 /\ last ds [] = [])) -> lookup_u8 U src flags = Ok (join ds).
Proof.
  intros U src flags o ds K C B P F Z. unfold lookup_u8. destruct (set_flags_spec flags) as [(B' & E)|(_ & E)]; [contradiction|]. rewrite E. cbn [bind].
  assert ((if negb (has (eff flags) IDN2_NO_TR46) then tr46 U src (eff flags) else Ok src) = Ok o) as ->.
  { rewrite has_no_tr46. destruct P as [T|o l n T Ho]; rewrite T; cbn [negb]; [reflexivity|]. apply tr46_ok_iff; eauto. }
  cbn [bind]. apply (lookup_labels_intro U (eff flags) (split_dots o) ds []); auto. apply split_nonempty.
Qed.

Lemma lookup_safe : forall U src flags, nfc_ok U -> c_string src -> zlen src < two64 -> safe (lookup_u8 U src flags).
Proof.
  intros U src flags K C L. unfold lookup_u8. destruct (set_flags_spec flags) as [(B & E)|(B & E)]; rewrite E; [exact I|]. cbn [bind].
  apply safe_bind.
  - destruct (negb _); [now apply tr46_safe|exact I].
  - intros o Ho. apply lookup_labels_safe; auto.
    assert (P : c_string o /\ zlen o < two64).
    { destruct (negb _); [|injection Ho as <-; auto]. apply tr46_ok_iff in Ho; auto. destruct Ho as (l & n & T). apply tr46_out in T. unfold two64. split; [tauto|lia]. }
    destruct P as (P1 & P2). eapply Forall_impl; [apply plain_bytes|]. now apply plain_split.
Qed.

Definition dns_label (d : list Z) : Prop := zlen d <= 63 /\ Forall (fun b => 0 < b < 128) d.
Lemma Forall2_impl_in : forall (A B : Type) (P Q : A -> B -> Prop) l m, Forall2 P l m ->
  (forall a b, In a l -> P a b -> Q a b) -> Forall2 Q l m.
Proof.
  induction 1 as [|a b l m H F IH]; intros G; constructor; [apply G; auto; now left|]. apply IH. intros x y I. apply G. now right.
Qed.
Lemma Forall2_right : forall (A B : Type) (P : A -> B -> Prop) (Q : B -> Prop) l m, Forall2 P l m ->
  (forall a b, In a l -> P a b -> Q b) -> Forall Q m.
Proof.
  induction 1 as [|a b l m H F IH]; intros G; constructor; [eapply G; eauto; now left|]. apply IH. intros x y I. apply G. now right.
Qed.
Lemma out_shape : forall U flags o ds, nfc_ok U -> c_string o -> zlen o < two64 ->
  Forall2 (fun l d => label U l 63 flags = Ok d) (split_dots o) ds ->
  Forall (fun d => zlen d <= 63 /\ Forall (fun b => 0 < b < 128 /\ b <> 46) d) ds.
Proof.
  intros U flags o ds K C L F. pose proof (plain_split o C L) as P. eapply Forall2_right; [exact F|]. intros l d I H.
  rewrite Forall_forall in P. exact (label_shape U flags l d K (P l I) H).
Qed.
Lemma ds_dotted : forall U flags o ds, nfc_ok U -> c_string o -> zlen o < two64 ->
  Forall2 (fun l d => label U l 63 flags = Ok d) (split_dots o) ds -> dotted ds (join ds).
Proof.
  intros U flags o ds K C L F. pose proof (out_shape U flags o ds K C L F) as S. split; [|split; [|reflexivity]].
  - intros ->. pose proof (split_nonempty o) as N. inversion F. congruence.
  - eapply Forall_impl; [|exact S]. intros d (_ & D) I. rewrite Forall_forall in D. apply D in I. tauto.
Qed.
Lemma lookup_shape : forall U src flags r, nfc_ok U -> c_string src -> zlen src < two64 -> lookup_u8 U src flags = Ok r ->
  Forall (fun b => 0 < b < 128) r /\ (exists ls, dotted ls r /\ Forall (fun l => zlen l <= 63) ls) /\
  (zlen r <= 253 \/ (zlen r = 254 /\ exists t, r = t ++ [46])).
Proof.
  intros U src flags r K C L H. apply lookup_inv in H; auto. destruct H as (_ & o & ds & P & F & -> & Z).
  destruct (prepared_ok _ _ _ _ P C L) as (C' & L'). pose proof (out_shape U _ o ds K C' L' F) as S. pose proof (ds_dotted U _ o ds K C' L' F) as D.
  split; [|split].
  - apply join_Forall; [lia|]. eapply Forall_impl; [|exact S]. intros d (_ & X). eapply Forall_impl; [|exact X]. cbv beta. tauto.
  - exists ds. split; [exact D|]. eapply Forall_impl; [|exact S]. cbv beta. tauto.
  - destruct Z as [Z|(Z1 & Z2)]; [now left|right]. split; [exact Z1|]. apply last_join; auto; [apply D|lia].
Qed.
