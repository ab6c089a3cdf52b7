(** Whole names with and without UTS #46. *)
From Verif Require Import Base PunyBase PunyExact PunyDet Uenv DataTypes SpecUtf8 SpecPuny SpecTables SpecBidi SpecContext SpecLabel SpecNfc SpecLookup SpecToAscii SpecRegister Utf8 Utf8Proofs
  Lookup MapProofs LookupTr46 LookupIdem LookupMap LookupTop RegLookup ToAsciiProofs Compose RoundTrip RegRefusal FlagRel Uts46Proofs SpecTwoModes TwoModes.

Lemma map_join : forall tr std3 ls, uts46_map tr std3 (join ls) = join (map (uts46_map tr std3) ls).
Proof.
  intros tr std3. assert (D : map1 tr std3 46 = [46]).
  { assert (X : fixed tr std3 46) by (apply valid_fixed; apply lower_digit_valid; auto). apply X. }
  induction ls as [|a [|b r] IH]; [reflexivity|reflexivity|]. cbn [map] in *. rewrite LookupProofs.join_cons. unfold uts46_map in *. rewrite flat_map_app. cbn [flat_map]. rewrite D, IH. rewrite LookupProofs.join_cons. reflexivity.
Qed.
Lemma map_eq_F2 : forall (A B : Type) (h k : A -> B) l, Forall (fun x => h x = k x) l -> map h l = map k l.
Proof. induction 1 as [|x l H F IH]; [reflexivity|]. cbn [map]. congruence. Qed.
Lemma map_id_in' : forall (A : Type) (h : A -> A) l, Forall (fun c => h c = c) l -> map h l = l.
Proof. induction 1 as [|c l H F IH]; [reflexivity|]. cbn [map]. congruence. Qed.
Lemma F2_impl : forall (A B : Type) (P Q : A -> B -> Prop), (forall a b, P a b -> Q a b) -> forall la lb, Forall2 P la lb -> Forall2 Q la lb.
Proof. induction 2; constructor; auto. Qed.
Lemma F2_and : forall (A B C : Type) (P : A -> B -> Prop) (Q : B -> C -> Prop) la lb lc, Forall2 P la lb -> Forall2 Q lb lc -> Forall2 (fun a c => exists b, In b lb /\ P a b /\ Q b c) la lc.
Proof.
  intros A B C P Q la lb lc F. revert lc. induction F as [|a b la lb H F IH]; intros lc G; inversion G as [|b' c lb' lc' H' G']; subst; constructor.
  - exists b. cbn. auto.
  - eapply F2_impl; [|apply IH; exact G']. intros x y (z & I & R). exists z. cbn. auto.
Qed.
Lemma F2_map : forall (A B : Type) (P : A -> B -> Prop) (h : A -> A) (k : B -> B) la lb, Forall2 (fun a b => P (h a) (k b)) la lb -> Forall2 P (map h la) (map k lb).
Proof. induction 1; cbn [map]; constructor; auto. Qed.
Lemma F2_left : forall (A B : Type) (P : A -> Prop) (R : A -> B -> Prop) la lb, Forall2 R la lb -> (forall a b, In a la -> R a b -> P a) -> Forall P la.
Proof. induction 1 as [|a b la lb H F IH]; intros G; constructor; [eapply G; cbn; eauto|]. apply IH. intros x y I. apply G. cbn. auto. Qed.
Lemma F2_in : forall (A B : Type) (R Q : A -> B -> Prop) la lb, Forall2 R la lb -> (forall a b, In a la -> In b lb -> R a b -> Q a b) -> Forall2 Q la lb.
Proof. induction 1 as [|a b la lb H F IH]; intros G; constructor; [apply G; cbn; auto|]. apply IH. intros x y I J. apply G; cbn; auto. Qed.
Lemma dotted_lower : forall ls s, dotted ls s -> dotted (map (map lower) ls) (map lower s).
Proof.
  intros ls s (A & B & ->). split; [destruct ls; [congruence|discriminate]|]. split; [|apply map_lower_join].
  apply Forall_forall. intros x I. apply in_map_iff in I. destruct I as (y & <- & I). apply lower_no46. rewrite Forall_forall in B. auto.
Qed.
Lemma fits_lower : forall ds r, name_fits ds r -> name_fits (map (map lower) ds) (map lower r).
Proof.
  intros ds r [H|(H & L)]; [left; now rewrite zlen_map|right]. rewrite zlen_map. split; [exact H|]. clear - L. induction ds as [|a [|b ds] IH]; [reflexivity| |].
  - cbn in *. subst a. reflexivity.
  - cbn [map last] in *. auto.
Qed.

Section Top.
  Variable U : uenv.
  Hypothesis K : nfc_ok U.
  Hypothesis M0 : ascii_unmarked U.
  Variables f g : Z.
  Hypothesis PF : plain_flags f.
  Hypothesis TG : tr46_flags g.

  (** The labels of the bytes, of the code points, and of the result. *)
  Lemma raw_parts : forall src r l ls, c_string src -> zlen src < two64 -> lookup_u8 U src f = Ok r -> utf8 l src -> dotted ls l ->
    exists ds, Forall2 (fun s d => exists b, zlen b < two64 /\ utf8 s b /\ raw_label U f b d) ls ds /\ dotted ds r /\ name_fits ds r.
  Proof.
    intros src r l ls C L H Hu D. apply lookup_exact in H; auto. destruct PF as (PB & PN & PR). destruct H as (_ & H). rewrite PN in H. destruct H as (bs & ds & DB & F & DS & Z).
    exists ds. split; [|auto]. pose proof (utf8_split l src Hu) as US. apply dotted_iff in D. pose proof DB as (_ & _ & JB). apply dotted_iff in DB. rewrite D, DB in US.
    eapply F2_impl; [|apply (F2_and _ _ _ _ _ _ _ _ US F)]. intros s d (b & I & A & B). exists b. split; [|auto]. pose proof (join_len bs b I). rewrite JB in L. lia.
  Qed.

  Lemma nfc_names : forall ls, ls <> [] -> Forall (fun s => ue_nfc U s = Some s) ls -> ue_nfc U (join ls) = Some (join ls).
  Proof. intros ls. now apply nfc_join. Qed.
  Lemma std3_labels : forall ls (P : Z -> Prop) l, dotted ls l -> Forall P l -> Forall (Forall P) ls.
  Proof. intros ls P l D F. apply dotted_iff in D. rewrite <- D. now apply split_Forall. Qed.
  Lemma F2_len : forall ls ds, Forall2 (fun s d : list Z => zlen s <= zlen d) ls ds -> zlen (join ls) <= zlen (join ds).
  Proof.
    induction 1 as [|a b la lb H F IH]; [cbn; lia|]. inversion F as [|a2 b2 r r' H2 F2]; subst; [exact H|].
    rewrite !LookupProofs.join_cons, !zlen_app, !zlen_cons. lia.
  Qed.

  Lemma default_iff : forall src r l ls, opt_nfc f = false -> c_string src -> zlen src < two64 -> lookup_u8 U src f = Ok r -> utf8 l src -> dotted ls l ->
    Forall (fun s => ~ upper_ace s) ls -> (opt_std3 g = true -> Forall (fun c => ~ is_std3 c) l) ->
    (lookup_u8 U src g = Ok (map lower r) <-> Forall hyphens_fine ls).
  Proof.
    intros src r l ls NF C L H Hu D NU NS. destruct (raw_parts src r l ls C L H Hu D) as (ds & F & DS & ZF). pose proof TG as (GB & GN & GT & GR).
    assert (NSL : opt_std3 g = true -> Forall (Forall (fun c => ~ is_std3 c)) ls) by (intros T; eapply std3_labels; eauto).
    assert (IN : forall s, In s ls -> ~ upper_ace s /\ (opt_std3 g = true -> Forall (fun c => ~ is_std3 c) s)).
    { intros s I. rewrite Forall_forall in NU. split; [auto|]. intros T. specialize (NSL T). rewrite Forall_forall in NSL. auto. }
    assert (MAPS : Forall (fun s => uts46_map false (opt_std3 g) s = map lower s /\ Forall (fun c => status_of c <> Disallowed) s /\ ue_nfc U (map lower s) = Some (map lower s)) ls /\
                   Forall2 (fun s d : list Z => zlen s <= zlen d) ls ds).
    { split.
      - eapply F2_left; [exact F|]. intros s d I (b & LB & Hb & R). destruct (IN s I) as (_ & NSs). destruct (raw_map U K f g PF b s d NF R Hb NSs) as (A1 & A2 & A3 & _). auto.
      - eapply F2_in; [exact F|]. intros s d I _ (b & LB & Hb & R). destruct (IN s I) as (_ & NSs). apply (raw_map U K f g PF b s d NF R Hb NSs). }
    destruct MAPS as (MAPS & LENS). pose proof D as (D1 & D2 & D3).
    assert (ML : uts46_map false (opt_std3 g) l = map lower l).
    { rewrite D3, map_join, map_lower_join. f_equal. apply map_eq_F2. eapply Forall_impl; [|exact MAPS]. cbv beta. tauto. }
    assert (ND : ~ Exists (fun c => status_of c = Disallowed) l).
    { rewrite D3. intros X. apply Exists_exists in X. destruct X as (c & I & E). assert (G : Forall (fun c => status_of c <> Disallowed) (join ls)).
      { apply join_Forall; [rewrite (lower_digit_valid 46) by auto; discriminate|]. eapply Forall_impl; [|exact MAPS]. cbv beta. tauto. }
      rewrite Forall_forall in G. exact (G c I E). }
    assert (NFC : ue_nfc U (map lower l) = Some (map lower l)).
    { rewrite D3, map_lower_join. apply nfc_names; [destruct ls; [congruence|discriminate]|]. apply Forall_forall. intros x I. apply in_map_iff in I. destruct I as (s & <- & I). rewrite Forall_forall in MAPS. now apply MAPS. }
    assert (LL : zlen (map lower l) < 255).
    { rewrite zlen_map. apply F2_len in LENS. rewrite D3. destruct DS as (_ & _ & JS). rewrite <- JS in LENS. destruct ZF as [ZF|(ZF & _)]; lia. }
    split.
    - intros G. apply lookup_exact in G; auto. destruct G as (_ & G). rewrite GN in G. destruct G as (l' & n & ls' & ds' & G1 & G2 & G3 & G4 & G5 & G6 & _).
      rewrite (u8_unique _ _ _ G1 Hu), GT, ML in G4. rewrite NFC in G4. injection G4 as <-. pose proof (dotted_lower _ _ D) as DL.
      rewrite (dotted_fun _ _ _ G5 DL) in G6.
      assert (HL : Forall hyphens_fine (map (map lower) ls)) by (eapply F2_left; [exact G6|]; intros a b _ T; eapply tr46_hyphens; eauto).
      eapply F2_left; [exact F|]. intros s d I (b & LB & Hb & R). destruct (IN s I) as (NUs & _). eapply hyphens_low; eauto.
      rewrite Forall_forall in HL. apply HL. now apply in_map.
    - intros HF. apply lookup_exact; auto. split; [exact GB|]. rewrite GN. exists l, (map lower l), (map (map lower) ls), (map (map lower) ds). rewrite GT, ML.
      split; [exact Hu|]. split; [exact ND|]. split; [exact LL|]. split; [exact NFC|]. split; [now apply dotted_lower|]. split; [|split; [now apply dotted_lower|now apply fits_lower]].
      apply F2_map. eapply F2_in; [exact F|]. intros s d I _ (b & LB & Hb & R). destruct (IN s I) as (NUs & NSs). rewrite Forall_forall in HF. eapply raw_tr46; eauto.
  Qed.

  Lemma prepared_bytes : forall src n, c_string src -> prepared U g src n -> exists b, utf8 n b /\ c_string b /\ zlen b < two64.
  Proof.
    intros src n C (l & Hu & ND & LL & E). destruct (uts46_map_ok false (opt_std3 g) l (utf8_scalar _ _ Hu) (utf8_c_string _ _ Hu C)) as (MS & MZ).
    pose proof (nfc_scalar U K _ _ MS E) as SN. pose proof (nfc_length U K _ _ E) as LN. destruct (u32_to_u8_total n SN) as (b & Eb). assert (Hb : utf8 n b) by (apply u32_to_u8_iff; exact Eb). exists b. split; [exact Hb|].
    assert (N0 : ~ In 0 n). { intros I. apply (nfc_no_separator U K 0 _ _ (or_introl eq_refl) E) in I. exact (MZ I). }
    split.
    - pose proof (utf8_bytes _ _ Hb) as BB. apply Forall_forall. intros x I. assert (x <> 0) by (intros ->; apply (utf8_In n b 0 Hb) in I; [auto|lia]). unfold bytes in BB. rewrite Forall_forall in BB. specialize (BB x I). lia.
    - assert (zlen b <= 4 * zlen n) by (apply utf8_len in Hb; lia). unfold two64. lia.
  Qed.

  Lemma to_raw : forall src r, c_string src -> zlen src < two64 -> lookup_u8 U src g = Ok r ->
    exists n b ls, prepared U g src n /\ utf8 n b /\ c_string b /\ dotted ls n /\ Forall hyphens_fine ls /\
      ((opt_std3 g = true \/ Forall unmixed ls) -> lookup_u8 U b f = Ok r).
  Proof.
    intros src r C L H. pose proof TG as (GB & GN & GT & GR). pose proof PF as (PB & PN & PR). apply lookup_exact in H; auto. destruct H as (_ & H). rewrite GN in H.
    destruct H as (l & n & ls & ds & H1 & H2 & H3 & H4 & H5 & H6 & H7 & H8). rewrite GT in H3, H4. assert (P : prepared U g src n) by (exists l; auto).
    destruct (prepared_bytes src n C P) as (b & Hb & Cb & Lb). exists n, b, ls. split; [exact P|]. split; [exact Hb|]. split; [exact Cb|]. split; [exact H5|].
    split; [eapply F2_left; [exact H6|]; intros s d _ T; eapply tr46_hyphens; eauto|]. intros UM. apply lookup_exact; auto. split; [exact PB|]. rewrite PN.
    pose proof (utf8_split n b Hb) as US. pose proof (proj1 (dotted_iff _ _) H5) as SP. rewrite SP in US. exists (split_dots b), ds. split; [now apply dotted_iff|]. split; [|auto].
    assert (UML : forall s, In s ls -> opt_std3 g = true \/ unmixed s) by (intros s I; destruct UM as [UM|UM]; [auto|rewrite Forall_forall in UM; auto]). clear - US H6 UML PF TG K.
    revert ds H6. induction US as [|s x ls bs A US IH]; intros ds H6; inversion H6 as [|s' d ls' ds' T H6']; subst; constructor.
    - eapply tr46_raw; eauto. apply UML. cbn. auto.
    - apply IH; auto. intros s' I. apply UML. cbn. auto.
  Qed.

  Lemma from_raw : forall src r n b ls, opt_nfc f = false -> c_string src -> zlen src < two64 -> prepared U g src n -> utf8 n b -> dotted ls n -> Forall hyphens_fine ls ->
    Forall (fun c => ~ (65 <= c <= 90)) n -> (opt_std3 g = true -> Forall (fun c => ~ is_std3 c) n) -> lookup_u8 U b f = Ok r -> lookup_u8 U src g = Ok r.
  Proof.
    intros src r n b ls NF C L P Hb D HF NU NS H. pose proof TG as (GB & GN & GT & GR). destruct (prepared_bytes src n C P) as (b' & Hb' & Cb & Lb). rewrite (utf8_fun _ _ _ Hb' Hb) in Cb, Lb.
    destruct P as (l & H1 & H2 & H3 & H4). destruct (raw_parts b r n ls Cb Lb H Hb D) as (ds & F & DS & ZF). apply lookup_exact; auto. split; [exact GB|]. rewrite GN. exists l, n, ls, ds. rewrite GT.
    split; [exact H1|]. split; [exact H2|]. split; [exact H3|]. split; [exact H4|]. split; [exact D|]. split; [|auto].
    pose proof (std3_labels _ _ _ D NU) as NUL. rewrite Forall_forall in NUL, HF.
    assert (LOW : forall s, In s ls -> map lower s = s).
    { intros s I. apply map_id_in. eapply Forall_impl; [|exact (NUL s I)]. cbv beta. intros c Q. unfold lower. destruct ((65 <=? c) && (c <=? 90)) eqn:E; zb; [lia|reflexivity]. }
    eapply F2_in; [exact F|]. intros s d I _ (x & LX & Hx & R).
    assert (UA : ~ upper_ace s).
    { intros (a & b0 & t & -> & E1 & E2 & E3). specialize (LOW _ I). cbn [map] in LOW. injection LOW as W1 W2 _. apply E3. lia. }
    assert (NSs : opt_std3 g = true -> Forall (fun c => ~ is_std3 c) s) by (intros T; pose proof (std3_labels _ _ _ D (NS T)) as Q; rewrite Forall_forall in Q; auto).
    pose proof (raw_tr46 U K M0 f g PF TG x s d NF R Hx LX UA NSs (HF s I)) as T. rewrite (LOW s I) in T. rewrite (raw_lower U f x s d PF NF R Hx (LOW s I)) in T. exact T.
  Qed.

  Lemma lower_same : forall src r l ls, opt_nfc f = false -> c_string src -> zlen src < two64 -> lookup_u8 U src f = Ok r -> utf8 l src -> dotted ls l ->
    Forall (fun c => ~ (65 <= c <= 90)) l -> (opt_std3 g = true -> Forall (fun c => ~ is_std3 c) l) ->
    (lookup_u8 U src g = Ok r <-> Forall hyphens_fine ls).
  Proof.
    intros src r l ls NF C L H Hu D NU NS. pose proof (std3_labels _ _ _ D NU) as NUL. rewrite Forall_forall in NUL.
    assert (LOW : forall s, In s ls -> map lower s = s).
    { intros s I. apply map_id_in. eapply Forall_impl; [|exact (NUL s I)]. cbv beta. intros c Q. unfold lower. destruct ((65 <=? c) && (c <=? 90)) eqn:E; zb; [lia|reflexivity]. }
    assert (UA : Forall (fun s => ~ upper_ace s) ls).
    { apply Forall_forall. intros s I (a & b0 & t & -> & E1 & E2 & E3). specialize (LOW _ I). cbn [map] in LOW. injection LOW as W1 W2 _. apply E3. lia. }
    assert (LR : map lower r = r).
    { destruct (raw_parts src r l ls C L H Hu D) as (ds & F & (_ & _ & ->) & _). rewrite map_lower_join. f_equal. apply map_id_in'. clear - F LOW NF PF.
      induction F as [|s d ls ds (b & LB & Hb & R) F IH]; constructor.
      - eapply raw_lower; eauto. apply LOW. cbn. auto.
      - apply IH. intros x I. apply LOW. cbn. auto. }
    rewrite <- LR at 1. now apply default_iff with (l := l).
  Qed.
End Top.
