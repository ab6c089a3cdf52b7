(** Canonical equivalence in the modes without TR46, and in registration. *)
From Verif Require Import Base PunyBase Uenv DataTypes Tables SpecUtf8 SpecPuny SpecTables SpecBidi SpecContext SpecLabel SpecNfc
  SpecLookup SpecToAscii SpecRegister Puny PunyExact LookupProofs Utf8 Utf8Proofs Idna Lookup LabelProofs MapProofs LookupTr46 LookupIdem LookupTop ToAsciiProofs
  Api Register RegisterProofs RefusalLabel RegRefusal AcceptExamples BaseTop DataUcd Ucd UcdProofs SpecCanon CanonProofs CanonTop CanonNfc CanonCases SpecNormInput.
Notation canon := SpecCanon.canon.

(** ** Labels of equivalent names are equivalent *)
Lemma nfd_dot : forall a b, nfd (a ++ 46 :: b) = nfd a ++ 46 :: nfd b.
Proof.
  intros a b. unfold nfd. rewrite flat_map_app. cbn [flat_map]. destruct (separator_facts 46 ltac:(now right)) as (A & B & _). rewrite B.
  cbn [app]. now apply order_app.
Qed.
Lemma nfd_nodot : forall l, ~ In 46 l -> ~ In 46 (nfd l).
Proof.
  intros l N I. apply N. unfold nfd in I. apply (proj1 (order_in _ _)) in I. apply in_flat_map in I. destruct I as (c & I & J).
  apply decomp_sep in J; [now subst c|now right].
Qed.
Lemma nfd_join : forall ls, ls <> [] -> nfd (join ls) = join (map nfd ls).
Proof.
  induction ls as [|x ls IH]; intros N; [congruence|]. destruct ls as [|y ls]; [reflexivity|].
  change (join (x :: y :: ls)) with (x ++ 46 :: join (y :: ls)). rewrite nfd_dot, IH by discriminate. reflexivity.
Qed.
Lemma nfd_split : forall l, split_dots (nfd l) = map nfd (split_dots l).
Proof.
  intros l. rewrite <- (join_split l) at 1. rewrite nfd_join by apply split_nonempty. apply split_join.
  - pose proof (split_nonempty l). destruct (split_dots l); [congruence|discriminate].
  - apply Forall_map. eapply Forall_impl; [|apply split_nodot]. intros x. apply nfd_nodot.
Qed.
Lemma map_eq_Forall2 : forall l m, map nfd l = map nfd m -> Forall2 canon l m.
Proof.
  induction l as [|x l IH]; intros [|y m] E; cbn [map] in E; try discriminate E; [constructor|].
  injection E as E1 E2. constructor; [now apply canon_iff|auto].
Qed.
Lemma canon_split : forall l m, canon l m -> Forall2 canon (split_dots l) (split_dots m).
Proof. intros l m H. apply map_eq_Forall2. rewrite <- !nfd_split. now rewrite (proj1 (canon_iff l m) H). Qed.

(** ** ASCII *)
Definition twinb (c : Z) : bool := (c =? 0x37E) || (c =? 0x1FEF) || (c =? 0x212A).
Lemma twinb_iff : forall c, twinb c = true <-> ascii_twin c.
Proof. intros c. unfold twinb, ascii_twin. rewrite !orb_true_iff, !Z.eqb_eq. tauto. Qed.
Lemma twins_checked : forallb (fun e : Z * list Z => Bool.eqb (twinb (fst e)) (forallb (fun x => x <? 128) (snd e))) ucd_decomp = true.
Proof. vm_compute. reflexivity. Qed.
Lemma twins : forall c, 128 <= c -> (ascii_twin c <-> all_ascii (decomp1 c)).
Proof.
  intros c G. rewrite <- twinb_iff. unfold all_ascii. destruct (decomp_cases c) as [H|[(_ & H)|(_ & H)] ].
  - assert (twinb c = false) as ->. { unfold hangul in H. unfold twinb. rewrite !orb_false_iff, !Z.eqb_neq. rewrite andb_true_iff, !Z.leb_le in H. lia. }
    split; [discriminate|]. intros F. apply hangul_parts in H as K. cbv zeta in K. unfold decomp1 in F. rewrite H in F. apply Forall_inv in F. lia.
  - assert (twinb c = false) as E. { destruct (twinb c) eqn:T; [|reflexivity]. apply twinb_iff in T. exfalso. destruct T as [T|[T|T] ]; rewrite T in H; vm_compute in H; discriminate H. }
    rewrite E, H. split; [discriminate|]. intros F. apply Forall_inv in F. lia.
  - pose proof (proj1 (forallb_forall _ _) twins_checked _ H) as K. cbn [fst snd] in K. apply Bool.eqb_prop in K. rewrite K.
    rewrite forallb_forall, Forall_forall. split; intros F x I; apply F in I; [now apply Z.ltb_lt|now apply Z.ltb_lt].
Qed.
Lemma all_ascii_dec : forall l, all_ascii l \/ not_ascii l.
Proof.
  intros l. destruct (Exists_dec (fun c => 128 <= c) l) as [E|E]; [intros c; apply Z_le_dec|now right|].
  left. apply Forall_forall. intros c I. destruct (Z_lt_dec c 128); [auto|]. exfalso. apply E. apply Exists_exists. exists c. split; [auto|lia].
Qed.
Lemma ascii_both : forall l, all_ascii l -> not_ascii l -> False.
Proof. intros l A N. apply Exists_exists in N. destruct N as (c & I & G). unfold all_ascii in A. rewrite Forall_forall in A. apply A in I. lia. Qed.
Lemma nfd_ascii : forall l, all_ascii l -> nfd l = l.
Proof.
  intros l A. unfold nfd, all_ascii in *. rewrite flat_map_same.
  - apply order_starters. eapply Forall_impl; [|exact A]. intros c. apply ccc_ascii.
  - intros c I. rewrite Forall_forall in A. apply decomp_ascii. now apply A.
Qed.
Lemma nfd_wide : forall l, not_ascii l -> Forall (fun c => ~ ascii_twin c) l -> not_ascii (nfd l).
Proof.
  intros l N T. destruct (all_ascii_dec (nfd l)) as [A|A]; [exfalso|exact A]. apply Exists_exists in N. destruct N as (c & I & G).
  rewrite Forall_forall in T. apply (T c I). apply twins; [exact G|]. unfold all_ascii in *. rewrite Forall_forall in *. intros x J. apply A.
  unfold nfd. apply order_in. apply in_flat_map. exists c. auto.
Qed.
Lemma canon_ascii : forall l m, canon l m -> Forall (fun c => ~ ascii_twin c) l -> Forall (fun c => ~ ascii_twin c) m ->
  (all_ascii l /\ m = l) \/ (not_ascii l /\ not_ascii m).
Proof.
  intros l m H T1 T2. apply canon_iff in H. destruct (all_ascii_dec l) as [A|A]; destruct (all_ascii_dec m) as [B|B]; auto.
  - left. split; [exact A|]. now rewrite !nfd_ascii in H.
  - exfalso. apply (ascii_both (nfd m)); [|now apply nfd_wide]. rewrite <- H. now rewrite nfd_ascii.
  - exfalso. apply (ascii_both (nfd l)); [|now apply nfd_wide]. rewrite H. now rewrite nfd_ascii.
Qed.
Lemma utf8_bytes : forall l s, utf8 l s -> bytes s.
Proof. intros l s H. apply u32_to_u8_iff in H. now apply u32_to_u8_bytes in H. Qed.
Lemma utf8_scalars : forall l s, utf8 l s -> Forall scalar l.
Proof. intros l s H. apply utf8_domain. exists s. now apply u32_to_u8_iff. Qed.
Lemma wide_bytes : forall l s, utf8 l s -> not_ascii l -> ascii_p s = false.
Proof.
  intros l s H N. destruct (ascii_p s) eqn:E; [|reflexivity]. exfalso. apply ascii_p_iff in E. assert (l = s) as -> by (now apply utf8_ascii_eq).
  now apply (ascii_both s).
Qed.
Lemma narrow_bytes : forall l s, utf8 l s -> all_ascii l -> s = l.
Proof.
  intros l s H A. pose proof (nonascii_utf8 l s H (utf8_bytes _ _ H) (utf8_scalars _ _ H) A) as K. symmetry. now apply utf8_ascii_eq.
Qed.

(** ** Results are the same *)

Lemma converted_same : forall l1 l2 s1 s2, utf8 l1 s1 -> utf8 l2 s2 -> canon l1 l2 -> Forall (fun c => ~ supplementary c) l1 -> Forall (fun c => ~ supplementary c) l2 ->
  u8_to_u32_nfc ucd s1 true = u8_to_u32_nfc ucd s2 true.
Proof.
  intros l1 l2 s1 s2 U1 U2 H B1 B2. rewrite (nfc_input ucd s1 l1 ucd_qc_sound U1 B1), (nfc_input ucd s2 l2 ucd_qc_sound U2 B2).
  cbn [ue_nfc ucd]. now rewrite (nfc_canon_eq _ _ H).
Qed.
Lemma plain_parts : forall l, Forall (fun c => ~ ascii_twin c) l -> Forall (fun c => ~ supplementary c) l -> plain_text l.
Proof. intros l A B. unfold plain_text. rewrite Forall_forall in *. auto. Qed.
Lemma plain_twin : forall l, plain_text l -> Forall (fun c => ~ ascii_twin c) l. Proof. intros l. apply Forall_impl. tauto. Qed.
Lemma plain_bmp : forall l, plain_text l -> Forall (fun c => ~ supplementary c) l. Proof. intros l. apply Forall_impl. tauto. Qed.
Lemma label_same : forall l1 l2 s1 s2 n g, utf8 l1 s1 -> utf8 l2 s2 -> canon l1 l2 -> plain_text l1 -> plain_text l2 -> opt_nfc g = true ->
  label ucd s1 n g = label ucd s2 n g.
Proof.
  intros l1 l2 s1 s2 n g U1 U2 H P1 P2 N. destruct (canon_ascii l1 l2 H (plain_twin _ P1) (plain_twin _ P2)) as [(A & ->)|(A & B)].
  - now rewrite (narrow_bytes _ _ U1 A), (narrow_bytes _ _ U2 A).
  - unfold label. rewrite (wide_bytes _ _ U1 A), (wide_bytes _ _ U2 B). unfold label_tail. rewrite !has_nfc, N.
    now rewrite (converted_same l1 l2 s1 s2 U1 U2 H (plain_bmp _ P1) (plain_bmp _ P2)).
Qed.
Lemma labels_same : forall g ss1 ss2, Forall2 (fun s1 s2 => label ucd s1 LABEL_MAX g = label ucd s2 LABEL_MAX g) ss1 ss2 -> forall acc, lookup_labels ucd g ss1 acc = lookup_labels ucd g ss2 acc.
Proof.
  intros g ss1 ss2 F. induction F as [|s1 s2 ss1 ss2 E F IH]; intros acc; [reflexivity|]. cbn [lookup_labels]. rewrite E.
  assert (match ss1 with [] => true | _ => false end = match ss2 with [] => true | _ => false end) as -> by (destruct F; reflexivity).
  destruct (label ucd s2 LABEL_MAX g); cbn [bind]; auto. now rewrite IH.
Qed.
Lemma Forall2_chain : forall (ls1 ls2 ss1 ss2 : list (list Z)) (R : list Z -> list Z -> Prop) (P Q : list Z -> Prop), Forall2 utf8 ls1 ss1 -> Forall2 utf8 ls2 ss2 -> Forall2 canon ls1 ls2 -> Forall P ls1 -> Forall Q ls2 ->
  (forall l1 l2 s1 s2, utf8 l1 s1 -> utf8 l2 s2 -> canon l1 l2 -> P l1 -> Q l2 -> R s1 s2) -> Forall2 R ss1 ss2.
Proof.
  intros ls1 ls2 ss1 ss2 R P Q F1. revert ls2 ss2. induction F1 as [|l1 s1 ls1 ss1 U1 F1 IH]; intros ls2 ss2 F2 F HP HQ K.
  - inversion F; subst. inversion F2; subst. constructor.
  - inversion F; subst. inversion F2; subst. inversion HP; subst. inversion HQ; subst. constructor; [eapply K; eauto|]. eapply IH; eauto.
Qed.
Lemma raw_lookup_same : forall s1 s2 l1 l2 f, utf8 l1 s1 -> utf8 l2 s2 -> opt_no_tr46 f = true -> opt_nfc f = true -> canon l1 l2 ->
  Forall (fun c => ~ ascii_twin c) l1 -> Forall (fun c => ~ ascii_twin c) l2 -> Forall (fun c => ~ supplementary c) l1 -> Forall (fun c => ~ supplementary c) l2 ->
  lookup_u8 ucd s1 f = lookup_u8 ucd s2 f.
Proof.
  intros s1 s2 l1 l2 f U1 U2 T N H A1 A2 B1 B2. pose proof (plain_parts _ A1 B1) as P1. pose proof (plain_parts _ A2 B2) as P2.
  unfold lookup_u8. destruct (set_flags_spec f) as [(_ & ->)|(_ & ->)]; [reflexivity|]. cbn [bind]. rewrite has_no_tr46, eff_no_tr46, T. cbn [negb bind].
  apply labels_same. eapply (Forall2_chain _ _ _ _ _ plain_text plain_text (utf8_split _ _ U1) (utf8_split _ _ U2) (canon_split _ _ H)).
  - now apply split_Forall.
  - now apply split_Forall.
  - intros x1 x2 y1 y2 V1 V2 K Q1 Q2. apply (label_same x1 x2); auto. now rewrite eff_nfc.
Qed.
Lemma register_same : forall s1 s2 l1 l2 f o, utf8 l1 s1 -> utf8 l2 s2 -> opt_nfc f = true -> canon l1 l2 ->
  Forall (fun c => ~ ascii_twin c) l1 -> Forall (fun c => ~ ascii_twin c) l2 -> Forall (fun c => ~ supplementary c) l1 -> Forall (fun c => ~ supplementary c) l2 ->
  register_u8 ucd (Some s1) None o f = register_u8 ucd (Some s2) None o f.
Proof.
  intros s1 s2 l1 l2 f o U1 U2 N H A1 A2 B1 B2. unfold register_u8. f_equal. destruct (canon_ascii l1 l2 H A1 A2) as [(A & ->)|(A & B)].
  - now rewrite (narrow_bytes _ _ U1 A), (narrow_bytes _ _ U2 A).
  - unfold reg_ulabel. rewrite (wide_bytes _ _ U1 A), (wide_bytes _ _ U2 B). rewrite !has_nfc, N.
    now rewrite (converted_same l1 l2 s1 s2 U1 U2 H B1 B2).
Qed.

(** ** Accepted names *)
Lemma accepted_ldh : forall p, Forall scalar p -> idna2008_valid ucd false p -> Forall (fun c => c < 128 -> lower_ldh c) p.
Proof.
  intros p S (_ & _ & _ & D & N & _). unfold ok_disallowed, ok_no in *.
  rewrite Forall_forall in *. intros c I L. specialize (D c I). specialize (N c I). specialize (S c I). unfold scalar in S.
  apply ascii_pvalid; [lia| |exact N]. destruct D as [D|(D & _)]; [exact D|discriminate].
Qed.
Lemma normal_is_nfc : forall b l p, normal_form ucd b l p -> ok_nfc ucd p -> p = nfc l.
Proof.
  intros b l p H N. unfold ok_nfc in N. cbn [ue_nfc ucd] in N. apply some_inj in N. unfold normal_form in H. destruct b.
  - destruct H as [(_ & ->)|(_ & H)]; [congruence|]. cbn [ue_nfc ucd] in H. apply some_inj in H. congruence.
  - subst p. congruence.
Qed.
Lemma nfc_ascii_id : forall l, Forall scalar l -> all_ascii l -> nfc l = l.
Proof.
  intros l S A. assert (K : ue_nfc ucd l = Some l). { apply (nfc_ascii _ ucd_nfc_ok). unfold all_ascii in A. rewrite Forall_forall in *. intros c I. specialize (S c I). specialize (A c I). unfold scalar in S. lia. }
  cbn [ue_nfc ucd] in K. now apply some_inj in K.
Qed.
Lemma nfc_wide : forall l, Forall scalar l -> not_ascii l -> Forall (fun c => c < 128 -> lower_ldh c) (nfc l) -> not_ascii (nfc l).
Proof.
  intros l S N F. destruct (all_ascii_dec (nfc l)) as [A|A]; [exfalso|exact A].
  assert (l = nfc l) as E. { apply ucd_no_ldh; [reflexivity|]. unfold all_ascii in A. rewrite Forall_forall in *. auto. }
  rewrite <- E in A. now apply (ascii_both l).
Qed.
Lemma nfc_scalars : forall l, Forall scalar l -> Forall scalar (nfc l).
Proof. intros l S. apply (nfc_scalar _ ucd_nfc_ok l); auto. Qed.
Lemma scalar_permitted : forall l, Forall scalar l -> Forall permitted l.
Proof. intros l. apply Forall_impl. unfold scalar, permitted. intros c. lia. Qed.
Lemma raw_label_same : forall f l1 l2 s1 s2 d1 d2, utf8 l1 s1 -> utf8 l2 s2 -> canon l1 l2 -> ~ bad_flags f -> opt_no_tr46 f = true -> plain_label s1 -> raw_label ucd f s1 d1 -> raw_label ucd f s2 d2 ->
  d1 = d2.
Proof.
  assert (W : forall f l1 l2 s1 s2 d2, utf8 l1 s1 -> utf8 l2 s2 -> canon l1 l2 -> all_ascii l1 -> not_ascii l2 -> raw_label ucd f s2 d2 -> False).
  { intros f l1 l2 s1 s2 d2 U1 U2 H A B R. pose proof (wide_bytes _ _ U2 B) as NB. destruct R as [A' X LE|e p0 p e' E X D Sc Nf V RE LE SC|p0 p e A' Hu Nf V NA RE LE].
    - assert (ascii_p s2 = true) by now apply ascii_p_iff. congruence.
    - assert (ascii_p s2 = true); [|congruence]. subst s2. destruct D as (D & _). apply ascii_p_iff. apply ace_ascii. eapply Forall_impl; [|exact D]. unfold ldh_or_underscore. cbv beta. lia.
    - assert (p0 = l2) as -> by (apply u8_to_u32_iff in Hu, U2; eauto using utf8_bytes; congruence).
      pose proof (normal_is_nfc _ _ _ Nf (proj1 V)) as ->. pose proof (utf8_scalars _ _ U2) as S2.
      pose proof (accepted_ldh _ (nfc_scalars _ S2) V) as F. pose proof (nfc_wide _ S2 B F) as NW. apply (ascii_both (nfc l2)); [|exact NW].
      rewrite <- (nfc_canon_eq _ _ H). rewrite nfc_ascii_id; [exact A|eapply utf8_scalars; eauto|exact A]. }
  intros f l1 l2 s1 s2 d1 d2 U1 U2 H BF T PL R1 R2. destruct (all_ascii_dec l1) as [A|A]; destruct (all_ascii_dec l2) as [B|B].
  - assert (s2 = s1) as ->. { rewrite (narrow_bytes _ _ U1 A), (narrow_bytes _ _ U2 B). apply canon_iff in H. now rewrite !nfd_ascii in H. }
    apply (raw_label_iff ucd) in R1, R2; auto using ucd_nfc_ok. congruence.
  - exfalso. eapply (W f l1 l2); eauto.
  - exfalso. eapply (W f l2 l1); eauto. now apply canon_sym.
  - assert (X : forall l s d, utf8 l s -> not_ascii l -> raw_label ucd f s d -> exists e, d = ace e /\ rfc_encodes (nfc l) e /\ zlen e <= 59).
    { clear. intros l s d U B R. pose proof (wide_bytes _ _ U B) as NB. destruct R as [A' X LE|e p0 p e' E X D Sc Nf V RE LE SC|p0 p e A' Hu Nf V NA RE LE].
      - assert (ascii_p s = true) by now apply ascii_p_iff. congruence.
      - assert (ascii_p s = true); [|congruence]. subst s. destruct D as (D & _). apply ascii_p_iff. apply ace_ascii. eapply Forall_impl; [|exact D]. unfold ldh_or_underscore. cbv beta. lia.
      - assert (p0 = l) as -> by (apply u8_to_u32_iff in Hu, U; eauto using utf8_bytes; congruence).
        pose proof (normal_is_nfc _ _ _ Nf (proj1 V)) as ->. exists e. auto. }
    destruct (X _ _ _ U1 A R1) as (e1 & -> & E1 & L1). destruct (X _ _ _ U2 B R2) as (e2 & -> & E2 & L2). f_equal.
    rewrite <- (nfc_canon_eq _ _ H) in E2. apply (encoding_unique (nfc l1)); auto; try lia. apply scalar_permitted, nfc_scalars. eapply utf8_scalars; eauto.
Qed.
Lemma raw_lookup_accepted : forall s1 s2 l1 l2 f r1 r2, c_string s1 -> c_string s2 -> zlen s1 < two64 -> zlen s2 < two64 -> utf8 l1 s1 -> utf8 l2 s2 -> opt_no_tr46 f = true ->
  canon l1 l2 -> lookup_u8 ucd s1 f = Ok r1 -> lookup_u8 ucd s2 f = Ok r2 -> r1 = r2.
Proof.
  intros s1 s2 l1 l2 f r1 r2 C1 C2 Z1 Z2 U1 U2 T H R1 R2. apply (lookup_exact ucd ucd_nfc_ok) in R1, R2; auto. destruct R1 as (BF & R1). destruct R2 as (_ & R2). rewrite T in R1, R2.
  destruct R1 as (ls1 & ds1 & D1 & F1 & E1 & _). destruct R2 as (ls2 & ds2 & D2 & F2 & E2 & _). apply dotted_iff in D1, D2. subst ls1 ls2.
  destruct E1 as (_ & _ & ->). destruct E2 as (_ & _ & ->). f_equal.
  pose proof (Forall2_chain _ _ _ _ (fun a b => exists x y, utf8 x a /\ utf8 y b /\ canon x y) (fun _ => True) (fun _ => True) (utf8_split _ _ U1) (utf8_split _ _ U2) (canon_split _ _ H)) as F.
  assert (F' : Forall2 (fun a b => exists x y, utf8 x a /\ utf8 y b /\ canon x y) (split_dots s1) (split_dots s2)).
  { apply F; [apply Forall_forall; auto|apply Forall_forall; auto|]. intros. eauto. }
  pose proof (plain_split s1 C1 Z1) as PL. clear F. revert ds1 ds2 F1 F2. 
  induction F' as [|a b x y (u & v & V1 & V2 & V) F' IH]; intros ds1 ds2 F1 F2; inversion F1; subst; inversion F2; subst; [reflexivity|].
  inversion PL; subst. f_equal; [eapply (raw_label_same f u v a b); eauto|]. apply IH; auto.
Qed.
Lemma reg_ulabel_same : forall s1 s2 l1 l2 f r1 r2, c_string s1 -> c_string s2 -> utf8 l1 s1 -> utf8 l2 s2 -> canon l1 l2 ->
  reg_ulabel ucd s1 f = Ok r1 -> reg_ulabel ucd s2 f = Ok r2 -> r1 = r2.
Proof.
  intros s1 s2 l1 l2 f r1 r2 C1 C2 U1 U2 H R1 R2.
  assert (X : forall l s r, utf8 l s -> not_ascii l -> reg_ulabel ucd s f = Ok r -> registrable ucd (nfc l) /\ rest ucd (nfc l) = Ok r).
  { clear. intros l s r U N R. rewrite reg_ulabel_rest, (wide_bytes _ _ U N) in R. apply bind_ok in R. destruct R as (p & P & R).
    apply nfc_conv_iff in P. destruct P as (l0 & L & Nf). assert (l0 = l) as -> by (apply u8_to_u32_iff in U; eauto using utf8_bytes; congruence).
    pose proof (utf8_scalars _ _ U) as S. assert (SP : Forall scalar p) by (eapply normal_scalar; eauto using ucd_nfc_ok).
    pose proof R as R'. apply rest_ok in R'; auto. destruct R' as (V & _). pose proof (normal_is_nfc _ _ _ Nf (reg_nfc _ _ V)) as ->. auto. }
  assert (W : forall l1 l2 s1 s2 r2, utf8 l1 s1 -> utf8 l2 s2 -> canon l1 l2 -> all_ascii l1 -> not_ascii l2 -> reg_ulabel ucd s2 f = Ok r2 -> False).
  { clear - X. intros l1 l2 s1 s2 r2 U1 U2 H A B R. apply (X l2) in R; auto. destruct R as (V & _). pose proof (utf8_scalars _ _ U2) as S2.
    pose proof (registrable_ascii _ _ (nfc_scalars _ S2) V) as F. pose proof (nfc_wide _ S2 B F) as NW. apply (ascii_both (nfc l2)); [|exact NW].
    rewrite <- (nfc_canon_eq _ _ H). rewrite nfc_ascii_id; [exact A|eapply utf8_scalars; eauto|exact A]. }
  destruct (all_ascii_dec l1) as [A|A]; destruct (all_ascii_dec l2) as [B|B].
  - assert (s2 = s1) as ->. { rewrite (narrow_bytes _ _ U1 A), (narrow_bytes _ _ U2 B). apply canon_iff in H. now rewrite !nfd_ascii in H. } congruence.
  - exfalso. eapply (W l1 l2); eauto.
  - exfalso. eapply (W l2 l1); eauto. now apply canon_sym.
  - apply (X l1) in R1; auto. apply (X l2) in R2; auto. rewrite (nfc_canon_eq _ _ H) in R1. destruct R1 as (_ & R1). destruct R2 as (_ & R2). congruence.
Qed.
Lemma register_accepted : forall s1 s2 l1 l2 f q1 q2 r1 r2, c_string s1 -> c_string s2 -> utf8 l1 s1 -> utf8 l2 s2 -> canon l1 l2 ->
  register_u8 ucd (Some s1) None (Some q1) f = Ok (IDN2_OK, Some r1) -> register_u8 ucd (Some s2) None (Some q2) f = Ok (IDN2_OK, Some r2) -> r1 = r2.
Proof.
  intros s1 s2 l1 l2 f q1 q2 r1 r2 C1 C2 U1 U2 H R1 R2. unfold register_u8, deliver in R1, R2.
  destruct (reg_ulabel ucd s1 f) as [a1|rc| |] eqn:E1; [|injection R1 as R1 _; now apply RegisterTop.reg_u_nz in E1; auto using ucd_nfc_ok|discriminate R1|discriminate R1].
  destruct (reg_ulabel ucd s2 f) as [a2|rc| |] eqn:E2; [|injection R2 as R2 _; now apply RegisterTop.reg_u_nz in E2; auto using ucd_nfc_ok|discriminate R2|discriminate R2].
  assert (a1 = a2) as <- by (eapply (reg_ulabel_same s1 s2 l1 l2); eauto). cbn [store] in R1, R2. congruence.
Qed.

(** ** The exceptions *)
Ltac given := apply c_string_checked; reflexivity.
Ltac coded := apply u8_to_u32_iff; [apply c_string_bytes; given|vm_compute; reflexivity].
Lemma apart_twin : exists s1 s2 l1 l2 r, c_string s1 /\ c_string s2 /\ utf8 l1 s1 /\ utf8 l2 s2 /\ canon l1 l2 /\
  Forall (fun c => ~ supplementary c) l1 /\ Forall (fun c => ~ supplementary c) l2 /\
  lookup_u8 ucd s1 (IDN2_NO_TR46 + IDN2_NFC_INPUT) = Ok r /\ lookup_u8 ucd s2 (IDN2_NO_TR46 + IDN2_NFC_INPUT) = Fail IDN2_DISALLOWED /\
  register_u8 ucd (Some s1) None (Some None) IDN2_NFC_INPUT = Ok (IDN2_OK, Some (Some r)) /\ register_u8 ucd (Some s2) None (Some None) IDN2_NFC_INPUT = Ok (IDN2_DISALLOWED, Some None).
Proof.
  exists [75], [0xE2; 0x84; 0xAA], [75], [0x212A], [75]. split; [given|]. split; [given|]. split; [coded|]. split; [coded|]. split; [apply canon_iff; vm_compute; reflexivity|].
  split; [repeat constructor; unfold supplementary; lia|]. split; [repeat constructor; unfold supplementary; lia|].
  split; [vm_compute; reflexivity|]. split; [vm_compute; reflexivity|]. split; vm_compute; reflexivity.
Qed.
Lemma apart_supplementary : exists s1 s2 l1 l2 r, c_string s1 /\ c_string s2 /\ utf8 l1 s1 /\ utf8 l2 s2 /\ canon l1 l2 /\
  Forall (fun c => ~ ascii_twin c) l1 /\ Forall (fun c => ~ ascii_twin c) l2 /\
  lookup_u8 ucd s1 (IDN2_NO_TR46 + IDN2_NFC_INPUT) = Ok r /\ lookup_u8 ucd s2 (IDN2_NO_TR46 + IDN2_NFC_INPUT) = Fail IDN2_NOT_NFC /\
  register_u8 ucd (Some s1) None (Some None) IDN2_NFC_INPUT = Ok (IDN2_OK, Some (Some r)) /\ register_u8 ucd (Some s2) None (Some None) IDN2_NFC_INPUT = Ok (IDN2_NOT_NFC, Some None).
Proof.
  assert (E : exists r, lookup_u8 ucd [0xF0; 0x91; 0x82; 0x9A] (IDN2_NO_TR46 + IDN2_NFC_INPUT) = Ok r /\ register_u8 ucd (Some [0xF0; 0x91; 0x82; 0x9A]) None (Some None) IDN2_NFC_INPUT = Ok (IDN2_OK, Some (Some r)))
    by (eexists; split; vm_compute; reflexivity).
  destruct E as (r & E1 & E2).
  exists [0xF0; 0x91; 0x82; 0x9A], [0xF0; 0x91; 0x82; 0x99; 0xF0; 0x91; 0x82; 0xBA], [0x1109A], [0x11099; 0x110BA], r.
  split; [given|]. split; [given|]. split; [coded|]. split; [coded|]. split; [apply canon_iff; vm_compute; reflexivity|].
  split; [repeat constructor; unfold ascii_twin; lia|]. split; [repeat constructor; unfold ascii_twin; lia|].
  split; [exact E1|]. split; [vm_compute; reflexivity|]. split; [exact E2|vm_compute; reflexivity].
Qed.
Lemma apart_alabel : exists s1 s2 l1 l2 a, c_string s1 /\ c_string s2 /\ utf8 l1 s1 /\ utf8 l2 s2 /\ canon l1 l2 /\ plain_text l1 /\ plain_text l2 /\
  register_u8 ucd (Some s1) None (Some None) IDN2_NFC_INPUT = Ok (IDN2_OK, Some (Some a)) /\ register_u8 ucd (Some s2) None (Some None) IDN2_NFC_INPUT = Ok (IDN2_OK, Some (Some a)) /\
  register_u8 ucd (Some s1) (Some a) (Some None) IDN2_NFC_INPUT = Ok (IDN2_OK, Some (Some a)) /\ register_u8 ucd (Some s2) (Some a) (Some None) IDN2_NFC_INPUT = Ok (IDN2_UALABEL_MISMATCH, Some None).
Proof.
  exists [195;169], [101;204;129], [233], [101;769], [120;110;45;45;57;99;97].
  split; [given|]. split; [given|]. split; [coded|]. split; [coded|]. split; [apply canon_iff; vm_compute; reflexivity|].
  split; [repeat constructor; unfold ascii_twin, supplementary; lia|]. split; [repeat constructor; unfold ascii_twin, supplementary; lia|].
  split; [vm_compute; reflexivity|]. split; [vm_compute; reflexivity|]. split; vm_compute; reflexivity.
Qed.
