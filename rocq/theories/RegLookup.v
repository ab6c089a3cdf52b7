(** What can be registered can be looked up. *)
From Verif Require Import Base PunyBase PunyRT PunyInv PunyComplete Uenv DataTypes DataCsv DataTr46 SpecUtf8 SpecPuny SpecTables SpecBidi SpecContext SpecLabel SpecNfc
  SpecLookup SpecRegister Gentr46 Tr46Map Tr46Facts Utf8 Utf8Proofs Idna Puny PunyTop Lookup LabelProofs NfcProofs MapProofs LookupProofs LookupTr46
  LookupIdem TablesProofs BaseTop StableProofs DecodeProofs RoundTrip Register RegisterProofs.

(** ** The two tables: a code point not disallowed by the first is left alone by the second. *)
Definition st_ok (s : status) : bool := match s with Valid | Deviation => true | _ => false end.
Lemma st_ok_iff : forall s, st_ok s = true -> s = Valid \/ s = Deviation.
Proof. intros []; cbn [st_ok]; intros H; auto; discriminate. Qed.
Fixpoint walk (t : tree) (fuel : nat) (lo hi : Z) : bool :=
  match fuel with
  | O => false
  | S k => match tfind t lo with
           | Some r => st_ok (r_status r) && (if hi <=? r_hi r then true else walk t k (r_hi r + 1) hi)
           | None => false
           end
  end.
Definition csv_row_ok (t : tree) (r : prow) : bool :=
  match p_prop r with DISALLOWED | UNASSIGNED => true | _ => walk t 40 (p_lo r) (p_hi r) end.
Transparent idna_tree.
Lemma csv_rows_ok : (let t := idna_tree in forallb (csv_row_ok t) csv_rows) = true.
Proof. vm_cast_no_check (eq_refl true). Qed.
Opaque idna_tree.
Transparent status_of.
Lemma walk_ok : forall k lo hi, walk idna_tree k lo hi = true -> forall c, lo <= c <= hi -> status_of c = Valid \/ status_of c = Deviation.
Proof.
  induction k as [|k IH]; intros lo hi H c R; cbn [walk] in H; [discriminate|].
  destruct (tfind idna_tree lo) as [r|] eqn:E; [|discriminate]. rewrite andb_true_iff in H. destruct H as (H1 & H2).
  apply tfind_in in E. destruct E as (I & B).
  assert (G : c <= r_hi r -> status_of c = Valid \/ status_of c = Deviation).
  { intros L. assert (idna_row c = Some r) as Er.
    { apply idna_row_unique; [|lia]. Transparent idna_tree. unfold idna_tree in I. Opaque idna_tree. destruct (build 14 idna_rows) as (t & rest) eqn:Eb. cbn [fst] in I.
      destruct (build_in _ _ _ _ Eb) as (A & _). now apply A. }
    assert (status_of c = r_status r) as -> by (unfold status_of; rewrite Er; reflexivity). now apply st_ok_iff. }
  destruct (hi <=? r_hi r) eqn:L; [apply Z.leb_le in L; apply G; lia|]. destruct (Z.le_gt_cases c (r_hi r)); [auto|]. apply (IH _ _ H2). lia.
Qed.
Global Opaque status_of.
Lemma pvalid_status : forall c, csv_property c <> DISALLOWED -> csv_property c <> UNASSIGNED -> status_of c = Valid \/ status_of c = Deviation.
Proof.
  intros c N1 N2. assert (R : 0 <= c <= 1114111).
  { destruct (Z.lt_ge_cases c 0); [exfalso; apply N2; apply csv_outside; lia|]. destruct (Z.le_gt_cases c 1114111); [lia|exfalso; apply N2; apply csv_outside; lia]. }
  destruct (csv_total c R) as (r & I & C & P). pose proof csv_rows_ok as H. cbv zeta in H. rewrite forallb_forall in H. specialize (H r I). unfold csv_row_ok in H.
  assert (csv_property c = p_prop r) as E by (apply csv_row_property; [exact I|exact C]). rewrite E in N1, N2.
  destruct (p_prop r); try congruence; exact (walk_ok _ _ _ H c C).
Qed.

(** ** Registrable labels pass the tests of the lookup. *)
Lemma registrable_status : forall U l, registrable U l -> Forall (fun c => status_of c = Valid \/ status_of c = Deviation) l.
Proof.
  intros U l [_ _ _ _ D _ _ N _]. unfold ok_disallowed, ok_no in *. rewrite Forall_forall in *. intros c I. apply pvalid_status; [|auto].
  destruct (D c I) as [X|(X & _)]; [exact X|discriminate].
Qed.
Lemma registrable_dot : forall U l, Forall scalar l -> registrable U l -> ok_dot l.
Proof.
  intros U l S R. pose proof (registrable_ascii U l S R) as A. unfold ok_dot. revert A. apply Forall_impl. intros c H ->. specialize (H ltac:(lia)). unfold lower_ldh in H. lia.
Qed.
Lemma registrable_okst : forall U l std3, registrable U l -> ok_status l false std3.
Proof. intros U l std3 R. apply registrable_status in R. revert R. apply Forall_impl. intros c [H|H]; rewrite H; auto. Qed.
Lemma registrable_lookup : forall U f l, Forall scalar l -> registrable U l -> lookup_pass U f l.
Proof.
  intros U f l S R. pose proof (registrable_dot U l S R) as D. pose proof (registrable_okst U l (negb (opt_std3 f)) R) as T. destruct R as [A1 A2 A3 A4 A5 A6 A7 A8 A9].
  unfold lookup_pass. intuition. unfold ok_disallowed in *. revert A5. apply Forall_impl. intros c [H|(H & _)]; [now left|discriminate].
Qed.
Lemma registrable_tr46 : forall U std3 l, Forall scalar l -> registrable U l -> tr46_pass U false std3 l.
Proof.
  intros U std3 l S R. pose proof (registrable_dot U l S R) as D. pose proof (registrable_okst U l (negb std3) R) as T. destruct R as [A1 A2 A3 A4 A5 A6 A7 A8 A9].
  exact (conj A1 (conj A2 (conj A3 (conj A4 (conj D T))))).
Qed.
Lemma status_fixed_nt : forall std3 c, status_of c = Valid \/ status_of c = Deviation -> fixed false std3 c.
Proof. intros std3 c H. unfold fixed, map1. destruct H as [H|H]; rewrite H; split; congruence. Qed.

Lemma a_label_enc : forall l e, a_label l (ace e) -> puny_encode l 59 59 = Ok e.
Proof.
  intros l e (S & X & t & E & LW & LT & R). injection E as <-. rewrite zlen_ace in LT.
  pose proof (rfc_decodes_len _ _ R) as LL. rewrite <- (lower_ldh_canon e LW) in R.
  assert (D : puny_decode e 63 63 = Ok l).
  { apply decode_complete; auto using lower_ldh_ldhu, scalar_permitted; try lia. unfold two64; lia. }
  rewrite <- (lower_ldh_canon e LW). apply (decode_encode e 63 63); auto; try lia; unfold two64; lia.
Qed.
Lemma not_xn : forall l, ok_2hyphen l -> ~ xn l.
Proof. intros q Hq (t & ->). apply Hq. eauto. Qed.

(** ** One label *)
Lemma reg_label : forall U f u a, nfc_ok U -> reg_pair U u a -> label U u 63 f = Ok a.
Proof.
  intros U f u a K (l & UB & R & [A|(LW & -> & Z)]); pose proof (utf8_scalar _ _ UB) as S.
  - pose proof A as (_ & X & t & -> & _). change (120 :: 110 :: 45 :: 45 :: t) with (ace t) in *.
    assert (NA : ~ Forall (fun b => b < 128) u).
    { intros FB. pose proof (utf8_ascii_eq _ _ UB FB) as ->. apply Exists_exists in X. destruct X as (c & I & G). rewrite Forall_forall in FB. apply FB in I. lia. }
    unfold label. destruct (ascii_p u) eqn:AB; [apply ascii_p_iff in AB; contradiction|].
    assert (U32 : u8_to_u32 u = Some l) by (apply u8_to_u32_iff in UB; auto; now apply (utf8_bytes l)).
    eapply (label_tail_intro U u None f l l t); auto.
    + apply u8_nfc_id; auto. apply R.
    + constructor; [apply norm_id; apply R| |now apply a_label_enc]. intros _. apply lookup_pass_iff; [now apply scalar_nonneg|]. now apply registrable_lookup.
    + intros _. apply (dec_a_label t l 63 63); auto; lia.
  - assert (l = u) as ->.
    { apply utf8_ascii_eq; auto. assert (utf8 l l). { apply utf8_ascii. revert LW. apply Forall_impl. unfold lower_ldh. lia. }
      rewrite (utf8_fun l u l) by auto. revert LW. apply Forall_impl. unfold lower_ldh. lia. }
    apply label_plain; auto.
    + revert LW. apply Forall_impl. unfold lower_ldh. lia.
    + intros _. apply not_xn. apply R.
Qed.

(** ** The name *)
Lemma utf8_join : forall ls us, Forall2 utf8 ls us -> utf8 (join ls) (join us).
Proof.
  intros ls us F. induction F as [|l u ls us H F IH]; [constructor|]. inversion F; subst; [assumption|].
  rewrite !join_cons2. apply utf8_app; auto. apply (utf8_app [46] _ [46] _); [|exact IH]. apply utf8_ascii. constructor; [lia|constructor].
Qed.
Lemma reg_pairs : forall U us rs, Forall2 (reg_pair U) us rs -> exists ls, Forall2 utf8 ls us /\ Forall (registrable U) ls /\ Forall2 shorter rs ls.
Proof.
  intros U us rs F. induction F as [|u r us rs (l & UB & R & H) F (ls & IH1 & IH2 & IH3)]; [exists []; repeat constructor|].
  exists (l :: ls). split; [now constructor|]. split; [now constructor|]. constructor; auto. unfold shorter.
  destruct H as [(_ & _ & t & -> & _ & _ & D)|(_ & -> & _)]; [apply rfc_decodes_len in D; rewrite !zlen_cons; lia|apply utf8_len in UB; lia].
Qed.
Lemma reg_lookup : forall U f us rs src r, nfc_ok U -> Forall2 (reg_pair U) us rs -> dotted us src -> dotted rs r ->
  zlen r <= 253 \/ (zlen r = 254 /\ last rs [] = []) -> ~ bad_flags f -> opt_no_tr46 f = true \/ opt_transitional f = false ->
  lookup_u8 U src f = Ok r.
Proof.
  intros U f us rs src r K F DU DR Z B NT. destruct (reg_pairs U us rs F) as (ls & FU & FR & FS).
  pose proof DU as (DU1 & DU2 & DU3). pose proof DR as (DR1 & _ & DR3).
  assert (NE : ls <> []) by (destruct FU; congruence).
  assert (UB : utf8 (join ls) src) by (rewrite DU3; now apply utf8_join).
  assert (SC : Forall (Forall scalar) ls).
  { clear - FU. induction FU as [|l u ls us H F IH]; constructor; auto. exact (utf8_scalar _ _ H). }
  assert (N0 : ~ In 0 (join ls)).
  { intros I. assert (J : Forall (fun c => c <> 0) (join ls)).
    { apply join_Forall; [discriminate|]. apply Forall_forall. intros l Il. rewrite Forall_forall in FR, SC.
      apply Forall_forall. intros c Ic ->. exact (registrable_no0 U l (SC l Il) (FR l Il) Ic). }
    rewrite Forall_forall in J. now apply (J 0). }
  assert (CS : c_string src).
  { pose proof (utf8_bytes _ _ UB) as BB. apply Forall_forall. intros x I. assert (x <> 0).
    { intros ->. apply (utf8_In (join ls) src 0 UB) in I; [auto|lia]. }
    unfold bytes in BB. rewrite Forall_forall in BB. specialize (BB x I). lia. }
  rewrite DR3. apply (lookup_intro U src f src rs); auto.
  - destruct (opt_no_tr46 f) eqn:N; [apply prep_raw; now rewrite eff_no_tr46|]. destruct NT as [NT|NT]; [congruence|].
    assert (ND : Forall (fun l => ~ In 46 l) ls).
    { apply Forall_forall. intros l Il I. rewrite Forall_forall in FR, SC. pose proof (registrable_dot U l (SC l Il) (FR l Il)) as D.
      unfold ok_dot in D. rewrite Forall_forall in D. now apply (D 46). }
    assert (FN : Forall (fixed false (opt_std3 f)) (join ls)).
    { apply join_Forall; [apply valid_fixed; apply lower_digit_valid; auto|]. apply Forall_forall. intros l Il. rewrite Forall_forall in FR.
      pose proof (registrable_status U l (FR l Il)) as ST. revert ST. apply Forall_impl. intros c. apply status_fixed_nt. }
    destruct (fixed_map _ _ _ FN) as (M1 & M2). apply join_zlen in FS. rewrite <- DR3 in FS.
    apply (prep_tr46 U (eff f) src src (join ls) (join ls)); [now rewrite eff_no_tr46|]. constructor; rewrite ?eff_transitional, ?eff_std3, ?NT, ?M1; auto; try lia.
    + apply nfc_join; auto. revert FR. apply Forall_impl. intros l R. apply R.
    + rewrite split_join by auto. apply Forall_forall. intros l Il. rewrite Forall_forall in FR, SC. apply chk_plain; [apply not_xn; now apply FR|].
      apply tr46_pass_iff; [apply scalar_nonneg; now apply SC|]. rewrite eff_transitional, eff_std3, NT. apply registrable_tr46; [now apply SC|now apply FR].
    + apply join_Forall; [unfold scalar; lia|exact SC].
  - apply dotted_iff in DU. rewrite DU. clear - F K. induction F as [|u a us rs H F IH]; constructor; auto. now apply reg_label.
  - now rewrite <- DR3.
Qed.
