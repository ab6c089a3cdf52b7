(** Results with and without UTS #46. *)
From Verif Require Import Base PunyBase PunyExact PunyDet Uenv DataTypes SpecUtf8 SpecPuny SpecTables SpecBidi SpecContext SpecLabel SpecNfc SpecLookup SpecToAscii SpecRegister Utf8 Utf8Proofs
  Lookup MapProofs LookupTr46 LookupIdem LookupMap LookupTop RegLookup ToAsciiProofs Compose RoundTrip RegRefusal FlagRel SpecTwoModes.
From Verif Require RegisterProofs.

Lemma lower_45 : forall c, lower c = 45 -> c = 45.
Proof. intros c. unfold lower. destruct ((65 <=? c) && (c <=? 90)) eqn:E; zb; lia. Qed.
Lemma low_2hyphen : forall s, ok_2hyphen s <-> ok_2hyphen (map lower s).
Proof.
  intros s. unfold ok_2hyphen. split; intros H (a & b & r & E); apply H.
  - destruct s as [|x [|y [|z [|w s]]]]; try discriminate E. cbn [map] in E. injection E as _ _ E3 E4 _. apply lower_45 in E3, E4. subst z w. exists x, y, s. reflexivity.
  - subst s. exists (lower a), (lower b), (map lower r). reflexivity.
Qed.
Lemma low_startend : forall s, ok_hyphen_startend s <-> ok_hyphen_startend (map lower s).
Proof.
  intros s. unfold ok_hyphen_startend. split; intros (A & B); split; intros r E.
  - destruct s as [|x s]; [discriminate E|]. cbn [map] in E. injection E as E _. apply lower_45 in E. subst. now apply (A s).
  - destruct s as [|x s] using rev_ind; [destruct r; discriminate E|]. rewrite map_app in E. cbn [map] in E. apply app_inj_tail in E. destruct E as (_ & E). apply lower_45 in E. subst. now apply (B s).
  - subst s. now apply (A (map lower r)).
  - subst s. apply (B (map lower r)). rewrite map_app. reflexivity.
Qed.
Lemma lod_lower : forall c, lower_or_digit c \/ c = 45 -> lower c = c.
Proof. intros c H. unfold lower_or_digit in H. unfold lower. destruct ((65 <=? c) && (c <=? 90)) eqn:E; zb; lia. Qed.
Lemma map_id_in : forall (h : Z -> Z) l, Forall (fun c => h c = c) l -> map h l = l.
Proof. induction 1 as [|c l H F IH]; [reflexivity|]. cbn [map]. congruence. Qed.
Lemma map_lower_join : forall ds, map lower (join ds) = join (map (map lower) ds).
Proof. induction ds as [|a [|b r] IH]; [reflexivity|reflexivity|]. cbn [map] in *. rewrite LookupProofs.join_cons, map_app. cbn [map]. rewrite IH. rewrite LookupProofs.join_cons. reflexivity. Qed.
Lemma lower_no46 : forall s, ~ In 46 s -> ~ In 46 (map lower s).
Proof. intros s H I. apply in_map_iff in I. destruct I as (c & E & I). apply lower_dot in E. subst. auto. Qed.

(** Strings that IDNA 2008 lets through. *)
Section Valid.
  Variable U : uenv.
  Lemma valid_lower : forall p, Forall scalar p -> idna2008_valid U false p -> Forall (fun c => status_of c = Valid \/ status_of c = Deviation) p /\ ascii_ldhu p /\ map lower p = p.
  Proof.
    intros p S (V1 & V2 & V3 & V4 & V5 & _). unfold ok_disallowed, ok_no in *. rewrite Forall_forall in S, V4, V5.
    assert (D : forall c, In c p -> csv_property c <> DISALLOWED) by (intros c I; destruct (V4 c I) as [X|(X & _)]; [exact X|discriminate]).
    assert (A : forall c, In c p -> c < 128 -> lower_or_digit c \/ c = 45).
    { intros c I L. apply csv_ascii_ldh; [|auto]. specialize (S c I). unfold scalar in S. lia. }
    split; [apply Forall_forall; intros c I; apply pvalid_status; auto|]. split.
    - apply Forall_forall. intros c I L. specialize (A c I L). unfold ldh_or_underscore, lower_or_digit in *. lia.
    - apply map_id_in. apply Forall_forall. intros c I. destruct (Z.lt_ge_cases c 128) as [L|L]; [apply lod_lower; auto|]. unfold lower. destruct ((65 <=? c) && (c <=? 90)) eqn:E; zb; lia.
  Qed.
  Lemma encoded_lower : forall p e, Forall scalar p -> map lower p = p -> rfc_encodes p e -> map lower e = e.
  Proof.
    intros p e S M ((ds & F & ->) & _). rewrite !map_app. f_equal; [|f_equal].
    - apply map_id_in. unfold ascii_part. apply Forall_forall. intros c I. apply filter_In in I. destruct I as (I & _). clear - M I. induction p as [|x p IH]; [destruct I|]. cbn [map] in M. injection M as M1 M2. destruct I as [<-|I]; auto.
    - destruct (zlen (ascii_part p) =? 0); reflexivity.
    - apply map_id_in. eapply Forall_impl; [|exact F]. intros c H. apply lod_lower. now left.
  Qed.
End Valid.

Lemma encoded_ldh : forall U p e, Forall scalar p -> idna2008_valid U false p -> rfc_encodes p e -> Forall lower_ldh e.
Proof.
  intros U p e S (V1 & V2 & V3 & V4 & V5 & _) ((ds & F & ->) & _). apply Forall_app. split; [|apply Forall_app; split].
  - apply Forall_forall. intros c I. unfold ascii_part in I. apply filter_In in I. destruct I as (I & L). rewrite Forall_forall in S. specialize (S c I). unfold scalar in S. apply Z.ltb_lt in L.
    unfold ok_disallowed in V4. rewrite Forall_forall in V4. destruct (V4 c I) as [X|(X & _)]; [|discriminate X].
    destruct (csv_ascii_ldh c ltac:(lia) X) as [Y|Y]; unfold lower_or_digit in *; unfold lower_ldh; lia.
  - destruct (zlen (ascii_part p) =? 0); [constructor|]. constructor; [|constructor]. unfold lower_ldh. lia.
  - eapply Forall_impl; [|exact F]. unfold lower_or_digit, lower_ldh. intros; lia.
Qed.
Lemma u8_unique : forall l m s, utf8 l s -> utf8 m s -> l = m.
Proof. intros l m s A B. apply u8_to_u32_complete in A. apply u8_to_u32_complete in B. congruence. Qed.

Section Label.
  Variable U : uenv.
  Hypothesis K : nfc_ok U.
  Hypothesis M0 : ascii_unmarked U.
  Variables f g : Z.
  Hypothesis PF : plain_flags f.
  Hypothesis TG : tr46_flags g.

  Lemma lower_status : forall c std3, 0 <= c < 128 -> (std3 = true -> ~ is_std3 c) -> status_of (lower c) = Valid \/ (std3 = false /\ is_std3 (lower c)).
  Proof.
    intros c std3 H N. assert (L : 0 <= lower c < 128) by (unfold lower; destruct ((65 <=? c) && (c <=? 90)) eqn:E; zb; lia).
    unfold is_std3 in *. rewrite (status_ascii _ L). rewrite (status_ascii _ H) in N. revert N. unfold ascii_status, lower.
    destruct ((65 <=? c) && (c <=? 90)) eqn:E; zb.
    - intros _. left. destruct ((65 <=? c + 32) && (c + 32 <=? 90)) eqn:E2; zb; [lia|]. replace ((97 <=? c + 32) && (c + 32 <=? 122)) with true; [reflexivity|]. symmetry. rewrite andb_true_iff. split; zb; lia.
    - rewrite E. destruct (_ || _); [auto|]. destruct std3; [|auto]. intros N. exfalso. apply N; auto.
  Qed.
  Lemma low_xn : forall s, ~ xn s -> ~ upper_ace s -> ~ xn (map lower s).
  Proof.
    intros s X N (t & E). destruct s as [|a [|b [|c [|d s]]]]; try discriminate E. cbn [map] in E. injection E as E1 E2 E3 E4 _. apply lower_45 in E3. apply lower_45 in E4. subst c d.
    apply N. exists a, b, s. split; [reflexivity|]. split; [exact E1|]. split; [exact E2|]. intros (-> & ->). apply X. exists s. reflexivity.
  Qed.

  (** What IDNA 2008 alone makes of a label, UTS #46 makes of it too. *)
  Lemma raw_tr46 : forall b s d, opt_nfc f = false -> raw_label U f b d -> utf8 s b -> zlen b < two64 -> ~ upper_ace s -> (opt_std3 g = true -> Forall (fun c => ~ is_std3 c) s) -> hyphens_fine s ->
    tr46_label U g (map lower s) (map lower d).
  Proof.
    destruct PF as (PB & PN & PR). destruct TG as (GB & GN & GT & GR).
    intros b s d NF R Hu LB NU NS HF. pose proof (utf8_scalar _ _ Hu) as SS. destruct R as [A X LE|e p0 p e' Eb X D Sc Nf V RE LE SB|p0 p e NA Hp Nf V NP RE LE].
    - assert (s = b) as -> by (now apply utf8_ascii_eq). specialize (X PR). destruct (HF b (ap_other b X)) as (H1 & H2).
      assert (R0 : Forall (fun c => 0 <= c < 128) b). { unfold all_ascii in A. rewrite Forall_forall in *. intros c I. specialize (SS c I). specialize (A c I). unfold scalar in SS. lia. }
      assert (R1 : Forall (fun c => 0 <= c < 128) (map lower b)).
      { rewrite Forall_forall in *. intros c I. apply in_map_iff in I. destruct I as (x & <- & I). specialize (R0 x I). cbv beta in R0. unfold lower. destruct ((65 <=? x) && (x <=? 90)) eqn:E; zb; lia. }
      apply t46_ascii; [eapply Forall_impl; [|exact R1]; cbv beta; lia|now apply low_xn| |rewrite zlen_map; exact LE].
      split; [now apply nfc_ascii|]. split; [now apply low_2hyphen in H1|]. split; [now apply low_startend in H2|]. split.
      + intros (c & r & E & MK). rewrite E in R1. inversion R1 as [|x y Z1 Z2]; subst. rewrite (M0 c Z1) in MK. discriminate MK.
      + apply Forall_forall. intros c I. apply in_map_iff in I. destruct I as (x & <- & I). rewrite Forall_forall in R0.
        destruct (lower_status x (opt_std3 g) (R0 x I)) as [Q|(Q1 & Q2)]; [|now left|right; right; rewrite Q1; auto].
        intros T. specialize (NS T). rewrite Forall_forall in NS. now apply NS.
    - rewrite NF in Nf. cbn in Nf. subst p0. destruct (valid_lower U p Sc V) as (ST & LD & ML). pose proof (encoded_lower p e' Sc ML RE) as LE'. pose proof (encoded_ldh U p e' Sc V RE) as FL.
      assert (A : all_ascii b). { rewrite Eb. apply ace_ascii. destruct D as (D & _). eapply Forall_impl; [|exact D]. unfold ldh_or_underscore. cbv beta. lia. }
      assert (s = ace e) as -> by (rewrite <- Eb; now apply utf8_ascii_eq).
      assert (E1 : map lower (ace e) = ace e'). { apply sbc_lower_map in SB. unfold ace. cbn [map]. rewrite SB, LE'. reflexivity. }
      assert (E2 : map lower (ace e') = ace e') by (unfold ace; cbn [map]; rewrite LE'; reflexivity). rewrite E1, E2. rewrite <- LE' at 2.
      destruct D as (D1 & D2 & D3 & D4 & D5).
      assert (CE : canon e' = e') by (apply RegisterProofs.lower_ldh_canon; exact FL).
      apply (t46_alabel U g (ace e') e' p); auto.
      + split; [|split; [rewrite CE; apply RE|auto]].
        eapply Forall_impl; [|exact FL]. unfold lower_ldh, ldh_or_underscore. intros; lia.
      + destruct V as (V1 & V2 & V3 & V4 & V5). destruct (HF p) as (_ & H2); [apply (ap_alabel (ace e) e p); [reflexivity|]; split; auto|].
        split; [exact V1|]. split; [exact V2|]. split; [exact H2|]. split; [exact V3|]. eapply Forall_impl; [|exact ST]. cbv beta. tauto.
      + rewrite LE'. exact CE.
      + intros _. destruct V as (V1 & V2 & V3 & V4 & V5). refine (conj V1 (conj V2 (conj V3 (conj _ V5)))). eapply Forall_impl; [|exact V4]. cbv beta. intros c [Q|(Q & _)]; [now left|discriminate Q].
    - rewrite NF in Nf. cbn in Nf. subst p0. assert (p = s) as -> by (eapply u8_unique; eauto). destruct (valid_lower U s SS V) as (ST & LD & ML). pose proof (encoded_lower s e SS ML RE) as LE'.
      rewrite ML. assert (E2 : map lower (ace e) = ace e) by (unfold ace; cbn [map]; rewrite LE'; reflexivity). rewrite E2.
      destruct V as (V1 & V2 & V3 & V4 & V5). pose proof (not_xn _ V2) as NX. destruct (HF s (ap_other s NX)) as (_ & H2).
      apply t46_ulabel; auto.
      + split; [exact V1|]. split; [exact V2|]. split; [exact H2|]. split; [exact V3|]. eapply Forall_impl; [|exact ST]. rewrite GT. cbv beta. tauto.
      + intros _. refine (conj V1 (conj V2 (conj V3 (conj _ V5)))). eapply Forall_impl; [|exact V4]. cbv beta. intros c [Q|(Q & _)]; [now left|discriminate Q].
  Qed.

  (** The other way: after mapping and normalising, IDNA 2008 alone gives what UTS #46 gives. *)
  Lemma tr46_raw : forall s b d, tr46_label U g s d -> utf8 s b -> (opt_std3 g = true \/ unmixed s) -> raw_label U f b d.
  Proof.
    destruct PF as (PB & PN & PR). destruct TG as (GB & GN & GT & GR).
    intros s b d T Hu UM. pose proof (utf8_scalar _ _ Hu) as SS.
    assert (STRICT : forall p, appears s p -> not_ascii p -> idna2008_valid U (negb (opt_std3 g)) p -> idna2008_valid U false p).
    { intros p AP NA (V1 & V2 & V3 & V4 & V5). refine (conj V1 (conj V2 (conj V3 (conj _ V5)))). destruct UM as [UM|UM]; [rewrite UM in V4; exact V4|].
      specialize (UM p AP NA). unfold ok_disallowed in *. rewrite Forall_forall in *. intros c I. destruct (V4 c I) as [Q|(_ & Q)]; [now left|exfalso; exact (UM c I Q)]. }
    destruct T as [A X V LE|e p Es LE D V R CE W|e p Es LE D V R|e NA X V W LD RE LE].
    - assert (b = s) as ->. { assert (all_ascii b) by (apply utf8_not_ascii in Hu; now apply Hu). symmetry. now apply utf8_ascii_eq. } apply raw_ascii; auto.
    - assert (A : all_ascii s). { rewrite Es. apply ace_ascii. destruct D as (D & _). eapply Forall_impl; [|exact D]. unfold ldh_or_underscore. cbv beta. lia. }
      assert (b = s) as ->. { assert (all_ascii b) by (apply utf8_not_ascii in Hu; now apply Hu). symmetry. now apply utf8_ascii_eq. }
      pose proof (canon_encodes e p LE D) as (RE & LE'). rewrite CE in RE, LE'. pose proof D as (D1 & D2 & D3 & D4 & D5). destruct V as (V1 & V2 & V3 & V4 & V5). pose proof (status_scalar _ _ _ D3 V5) as SP.
      apply (raw_alabel U f s e p p (map lower e)); auto.
      + now apply normal_id.
      + apply STRICT; [apply (ap_alabel s e p); auto|exact D4|]. now apply W.
      + apply sbc_lower_map. now rewrite map_lower_lower.
    - congruence.
    - destruct V as (V1 & _). apply (raw_ulabel U f b s s e); auto.
      + apply not_ascii_iff. apply not_ascii_iff in NA. intros Q. apply NA. apply utf8_not_ascii in Hu. now apply Hu.
      + now apply normal_id.
      + apply STRICT; [now apply ap_other|exact NA|now apply W].
  Qed.
  Lemma tr46_hyphens : forall s d, tr46_label U g s d -> hyphens_fine s.
  Proof.
    destruct TG as (GB & GN & GT & GR). intros s d T q AP. destruct T as [A X V LE|e p Es LE D V R CE W|e p Es LE D V R|e NA X V W LD RE LE].
    - destruct AP as [e p Es D|_]; [exfalso; apply X; exists e; exact Es|]. destruct V as (_ & V2 & V3 & _). auto.
    - destruct AP as [e' p' Es' D'|X]; [|exfalso; apply X; exists e; exact Es]. rewrite Es in Es'. apply ace_inj in Es'. subst e'.
      assert (p' = p) as -> by (destruct D as (_ & D & _); destruct D' as (_ & D' & _); eapply rfc_decodes_det; eauto). destruct V as (_ & V2 & V3 & _). auto.
    - congruence.
    - destruct AP as [e' p Es D|_]; [exfalso; apply X; exists e'; exact Es|]. destruct V as (_ & V2 & V3 & _). auto.
  Qed.
  (** Hyphens are not a matter of case. *)
  Lemma hyphens_low : forall b s d, opt_nfc f = false -> raw_label U f b d -> utf8 s b -> ~ upper_ace s -> hyphens_fine (map lower s) -> hyphens_fine s.
  Proof.
    destruct PF as (PB & PN & PR). intros b s d NF R Hu NU H. pose proof (utf8_scalar _ _ Hu) as SS. destruct R as [A X LE|e p0 p e' Eb X D Sc Nf V RE LE SB|p0 p e NA Hp Nf V NP RE LE].
    - assert (s = b) as -> by (now apply utf8_ascii_eq). specialize (X PR). destruct (H (map lower b) (ap_other _ (low_xn _ X NU))) as (H1 & H2).
      intros q AP. destruct AP as [e p Es D|_]; [exfalso; apply X; exists e; exact Es|]. split; [now apply low_2hyphen|now apply low_startend].
    - rewrite NF in Nf. cbn in Nf. subst p0. destruct (valid_lower U p Sc V) as (ST & LD & ML). pose proof (encoded_lower p e' Sc ML RE) as LE'. pose proof (encoded_ldh U p e' Sc V RE) as FL.
      assert (A : all_ascii b). { rewrite Eb. apply ace_ascii. destruct D as (D & _). eapply Forall_impl; [|exact D]. unfold ldh_or_underscore. cbv beta. lia. }
      assert (s = ace e) as -> by (rewrite <- Eb; now apply utf8_ascii_eq).
      assert (E1 : map lower (ace e) = ace e'). { apply sbc_lower_map in SB. unfold ace. cbn [map]. rewrite SB, LE'. reflexivity. } rewrite E1 in H.
      intros q AP. destruct AP as [e2 p2 Es D'|Q]; [|exfalso; apply Q; now exists e]. apply ace_inj in Es. subst e2.
      assert (p2 = p) as -> by (destruct D as (_ & D & _); destruct D' as (_ & D' & _); eapply rfc_decodes_det; eauto).
      apply H. apply (ap_alabel _ e' p); [reflexivity|]. destruct D as (D1 & D2 & D3 & D4 & D5). split; [eapply Forall_impl; [|exact FL]; unfold lower_ldh, ldh_or_underscore; intros; lia|].
      split; [rewrite (RegisterProofs.lower_ldh_canon _ FL); apply RE|auto].
    - rewrite NF in Nf. cbn in Nf. subst p0. assert (p = s) as -> by (eapply u8_unique; eauto). destruct (valid_lower U s SS V) as (ST & LD & ML). now rewrite ML in H.
  Qed.
  Lemma raw_map : forall b s d, opt_nfc f = false -> raw_label U f b d -> utf8 s b -> (opt_std3 g = true -> Forall (fun c => ~ is_std3 c) s) ->
    uts46_map false (opt_std3 g) s = map lower s /\ Forall (fun c => status_of c <> Disallowed) s /\ ue_nfc U (map lower s) = Some (map lower s) /\ zlen s <= zlen d.
  Proof.
    destruct PF as (PB & PN & PR). intros b s d NF R Hu NS. pose proof (utf8_scalar _ _ Hu) as SS.
    assert (ASC : all_ascii s -> uts46_map false (opt_std3 g) s = map lower s /\ Forall (fun c => status_of c <> Disallowed) s /\ ue_nfc U (map lower s) = Some (map lower s)).
    { intros A. assert (R0 : Forall (fun c => 0 <= c < 128) s). { unfold all_ascii in A. rewrite Forall_forall in *. intros c I. specialize (SS c I). specialize (A c I). unfold scalar in SS. lia. }
      split; [|split].
      - clear - R0 NS. induction R0 as [|c s H R0 IH]; [reflexivity|]. cbn [uts46_map flat_map map]. unfold uts46_map in IH. rewrite IH by (intros T; specialize (NS T); now inversion NS).
        change (lower c :: map lower s) with ([lower c] ++ map lower s). f_equal. assert (Q : opt_std3 g = true -> ~ is_std3 c) by (intros T; specialize (NS T); now inversion NS).
        unfold map1, is_std3 in *. rewrite (status_ascii c H) in *. unfold ascii_status, lower in *. destruct ((65 <=? c) && (c <=? 90)) eqn:E; zb; [apply mapping_upper; lia|].
        destruct (_ || _); [reflexivity|]. destruct (opt_std3 g); [exfalso; apply Q; auto|reflexivity].
      - eapply Forall_impl; [|exact R0]. cbv beta. intros c H. rewrite (status_ascii c H). unfold ascii_status. destruct (_ && _); [discriminate|]. destruct (_ || _); discriminate.
      - apply nfc_ascii; [exact K|]. apply Forall_forall. intros c I. apply in_map_iff in I. destruct I as (x & <- & I). rewrite Forall_forall in R0. specialize (R0 x I). cbv beta in R0. unfold lower. destruct ((65 <=? x) && (x <=? 90)) eqn:E; zb; lia. }
    destruct R as [A X LE|e p0 p e' Eb X D Sc Nf V RE LE SB|p0 p e NA Hp Nf V NP RE LE].
    - assert (s = b) as -> by (now apply utf8_ascii_eq). destruct (ASC A) as (A1 & A2 & A3). repeat split; auto. lia.
    - assert (A : all_ascii b). { rewrite Eb. apply ace_ascii. destruct D as (D & _). eapply Forall_impl; [|exact D]. unfold ldh_or_underscore. cbv beta. lia. }
      assert (s = b) as -> by (now apply utf8_ascii_eq). destruct (ASC A) as (A1 & A2 & A3). repeat split; auto. rewrite Eb, !zlen_ace. apply sbc_zlen in SB. lia.
    - rewrite NF in Nf. cbn in Nf. subst p0. assert (p = s) as -> by (eapply u8_unique; eauto). destruct (valid_lower U s SS V) as (ST & LD & ML). rewrite ML.
      assert (FX : Forall (fixed false (opt_std3 g)) s) by (eapply Forall_impl; [|exact ST]; intros c; apply status_fixed_nt).
      destruct (fixed_map _ _ _ FX) as (F1 & _). split; [exact F1|]. split; [eapply Forall_impl; [|exact ST]; cbv beta; intros c [Q|Q]; rewrite Q; discriminate|].
      split; [apply V|]. destruct RE as (_ & RE). apply RegisterProofs.rfc_decodes_len in RE. rewrite zlen_ace. lia.
  Qed.
End Label.

Lemma raw_lower : forall U f b s d, plain_flags f -> opt_nfc f = false -> raw_label U f b d -> utf8 s b -> map lower s = s -> map lower d = d.
Proof.
  intros U f b s d PF NF R Hu M. pose proof (utf8_scalar _ _ Hu) as SS. destruct R as [A X LE|e p0 p e' Eb X D Sc Nf V RE LE SB|p0 p e NA Hp Nf V NP RE LE].
  - assert (s = b) as -> by (now apply utf8_ascii_eq). exact M.
  - rewrite NF in Nf. cbn in Nf. subst p0. destruct (valid_lower U p Sc V) as (ST & LD & ML). unfold ace. cbn [map]. rewrite (encoded_lower p e' Sc ML RE). reflexivity.
  - rewrite NF in Nf. cbn in Nf. subst p0. assert (p = s) as -> by (eapply u8_unique; eauto). unfold ace. cbn [map]. rewrite (encoded_lower s e SS M RE). reflexivity.
Qed.
