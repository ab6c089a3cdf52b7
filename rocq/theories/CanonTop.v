(** Lookup and canonical equivalence. *)
From Coq Require Import Lia Bool.
From Verif Require Import Base PunyBase Uenv DataTypes DataTr46 SpecUtf8 SpecTables SpecLabel SpecLookup SpecNfc DataUcd Ucd UcdProofs UcdTree Gentr46 Tr46Facts
  Utf8 Utf8Proofs MapProofs BaseTop StableProofs Idna Lookup LabelProofs LookupProofs LookupTr46 LookupMisc LookupMap SpecToAscii ToAsciiProofs SpecCanon CanonProofs.

Lemma canon_parts : forall tr, (forall e, In e ucd_decomp -> check_mapped idna_tree ccc_tree decomp_tree tr e = true) /\
  (forall e, In e ucd_ccc -> check_marks idna_tree ccc_tree decomp_tree tr e = true) /\ (forall c, In c jamo -> check_jamo idna_tree tr c = true).
Proof.
  intros tr. pose proof (canon_checks tr) as C. unfold all_checks in C. apply andb_true_iff in C. destruct C as (C1 & C23). apply andb_true_iff in C23. destruct C23 as (C2 & C3).
  split; [exact (proj1 (forallb_forall _ _) C1)|]. split; [exact (proj1 (forallb_forall _ _) C2)|exact (proj1 (forallb_forall _ _) C3)].
Qed.
Lemma jamo_mapped : forall tr c, In c jamo -> map1 tr false c = [c].
Proof.
  intros tr c I. destruct (canon_parts tr) as (_ & _ & C). specialize (C c I). unfold check_jamo in C. destruct (tmap idna_tree tr c) as [x|] eqn:E; [|discriminate C].
  apply tmap_ok in E. apply list_eqb_iff in C. now rewrite E.
Qed.
Local Transparent mapping_of status_of.
Lemma hangul_mapped : forall tr c, hangul c = true -> map1 tr false c = [c].
Proof.
  intros tr c H. pose proof hangul_valid as V. cbv zeta in V. destruct (tfind idna_tree 44032) as [r|] eqn:E; [|discriminate V].
  rewrite !andb_true_iff, !Z.leb_le in V. destruct V as ((V1 & V2) & V3). apply tree_row in E.
  assert (In r idna_rows) as I by (unfold idna_row in E; now apply find_some in E). unfold hangul in H. rewrite andb_true_iff, !Z.leb_le in H.
  unfold map1, status_of. rewrite (idna_row_unique r c I) by lia. destruct (r_status r); try discriminate V1. reflexivity.
Qed.
Local Opaque mapping_of status_of.

(** Mapping a character, or its decomposition. *)
Lemma char_mapped : forall tr c, sw any (flat_map decomp1 (map1 tr false c)) (flat_map (fun x => flat_map decomp1 (map1 tr false x)) (decomp1 c)).
Proof.
  intros tr c. destruct (decomp_cases c) as [E|[(_ & E)|(_ & J)]].
  - rewrite hangul_mapped by exact E. cbn [flat_map]. rewrite app_nil_r.
    rewrite flat_map_same; [apply sw_refl|]. intros x I. pose proof (hangul_jamo c x E I) as J. rewrite jamo_mapped by exact J. cbn [flat_map]. rewrite app_nil_r.
    pose proof (proj1 (forallb_forall _ _) jamo_final x J) as F. cbn beta in F. now apply list_eqb_iff in F.
  - rewrite E. cbn [flat_map]. rewrite app_nil_r. apply sw_refl.
  - destruct (canon_parts tr) as (C & _ & _). specialize (C _ J). unfold check_mapped in C.
    destruct (tmap idna_tree tr c) as [x|] eqn:E1; [|discriminate C]. destruct (tmaps idna_tree tr (decomp1 c)) as [y|] eqn:E2; [|discriminate C].
    apply tmap_ok in E1. apply tmaps_ok in E2. apply list_eqb_iff in C. rewrite !torder_ok in C. rewrite E1, <- flat_map_flat_map, E2.
    apply order_iff. rewrite !(flat_map_ext _ _ tdecomp_ok) in C. exact C.
Qed.
(** A mark other than U+0345 is mapped to marks of its class. *)
Lemma mark_mapped : forall tr c, c <> iota_below -> 0 < ccc c -> same_class (ccc c) (flat_map decomp1 (map1 tr false c)).
Proof.
  intros tr c N P. destruct (canon_parts tr) as (_ & C & _).
  assert (exists lo hi, In (lo, hi, ccc c) ucd_ccc /\ lo <= c <= hi) as (lo & hi & I & R).
  { clear C. unfold ccc in *. induction ucd_ccc as [|((lo & hi) & v) t IH]; cbn [in_ranges] in *; [lia|].
    destruct (c <? lo) eqn:E1; [lia|]. destruct (c <=? hi) eqn:E2; [exists lo, hi; split; [now left|lia]|].
    destruct IH as (lo' & hi' & I & R); [exact P|]. exists lo', hi'. split; [now right|exact R]. }
  specialize (C _ I). unfold check_marks in C. rewrite forallb_forall in C. specialize (C c).
  assert (In c (map (fun n => lo + Z.of_nat n) (seq 0 (Z.to_nat (hi - lo + 1))))) as J by (apply range_in; lia).
  apply C in J. apply orb_true_iff in J. destruct J as [J|J]; [apply Z.eqb_eq in J; contradiction|].
  destruct (tmap idna_tree tr c) as [x|] eqn:E; [|discriminate J]. apply tmap_ok in E. rewrite E. rewrite (flat_map_ext _ _ tdecomp_ok) in J.
  rewrite forallb_forall in J. apply Forall_forall. intros d K. specialize (J d K). rewrite tccc_ok in J. now apply Z.eqb_eq.
Qed.
Lemma map_decomposed : forall tr l, sw any (flat_map decomp1 (uts46_map tr false l)) (flat_map (fun x => flat_map decomp1 (map1 tr false x)) (flat_map decomp1 l)).
Proof. intros tr l. unfold uts46_map. rewrite !flat_map_flat_map. apply sw_each. intros c _. apply char_mapped. Qed.
Lemma mapping_canon : forall tr l m, canon l m -> iota_in_order l -> iota_in_order m -> canon (uts46_map tr false l) (uts46_map tr false m).
Proof.
  intros tr l m C L M. apply canon_iff in C. apply canon_iff. unfold nfd in *. apply order_iff.
  eapply sw_trans; [apply map_decomposed|]. eapply sw_trans; [|apply sw_sym, map_decomposed].
  eapply sw_map; [|exact (order_eq_not_iota _ _ L M C)]. intros c N P. now apply mark_mapped.
Qed.
Lemma nfc_canon_eq : forall l m, canon l m -> nfc l = nfc m.
Proof. intros l m H. apply canon_iff in H. unfold nfc, nfd in *. now rewrite H. Qed.

(** The STD3 option matters only for characters it is about. *)
Lemma map_std3_free : forall tr std3 l, std3 = false \/ std3_free l -> uts46_map tr std3 l = uts46_map tr false l.
Proof.
  intros tr std3 l [->|F]; [reflexivity|]. unfold uts46_map. induction F as [|c l (H1 & H2) F IH]; [reflexivity|]. cbn [flat_map]. rewrite IH. f_equal.
  unfold map1. destruct (status_of c); congruence.
Qed.
Lemma lookup_canon : forall s1 s2 l1 l2 f, c_string s1 -> c_string s2 -> utf8 l1 s1 -> utf8 l2 s2 -> opt_no_tr46 f = false ->
  opt_std3 f = false \/ (std3_free l1 /\ std3_free l2) -> canon l1 l2 -> iota_in_order l1 -> iota_in_order l2 ->
  allowed l1 -> allowed l2 -> mapped_length f l1 < 255 -> mapped_length f l2 < 255 ->
  lookup_u8 ucd s1 f = lookup_u8 ucd s2 f.
Proof.
  intros s1 s2 l1 l2 f C1 C2 U1 U2 N S CA O1 O2 D1 D2 Z1 Z2. unfold mapped_length in *. unfold lookup_u8. destruct (set_flags_spec f) as [(B & E)|(B & E)]; rewrite E; [reflexivity|]. cbn [bind].
  rewrite has_no_tr46, eff_no_tr46, N. cbn [negb]. rewrite !tr46_eq by (auto using ucd_nfc_ok). unfold tr46_spec.
  apply u8_to_u32_iff in U1; [|now apply c_string_bytes]. apply u8_to_u32_iff in U2; [|now apply c_string_bytes]. rewrite U1, U2.
  assert (G : forall l, allowed l -> existsb disallowedb l = false).
  { intros l H. destruct (existsb disallowedb l) eqn:X; [|reflexivity]. apply existsb_exists in X. destruct X as (c & I & X). unfold disallowedb in X.
    exfalso. apply (proj1 (Forall_forall _ _) H c I). destruct (status_of c); try discriminate X; reflexivity. }
  rewrite (G l1), (G l2) by assumption. rewrite !eff_transitional, !eff_std3.
  rewrite (proj2 (Z.leb_gt 255 _) Z1), (proj2 (Z.leb_gt 255 _) Z2).
  rewrite !(map_std3_free _ (opt_std3 f)) by tauto. cbn [ue_nfc ucd].
  rewrite (nfc_canon_eq _ _ (mapping_canon (opt_transitional f) _ _ CA O1 O2)). reflexivity.
Qed.
Lemma accepted_facts : forall s f r l, c_string s -> zlen s < two64 -> opt_no_tr46 f = false -> utf8 l s -> lookup_u8 ucd s f = Ok r ->
  allowed l /\ mapped_length f l < 255.
Proof.
  intros s f r l C L N U H. apply (lookup_exact ucd ucd_nfc_ok) in H; auto. unfold accepts in H. destruct H as (_ & H). rewrite N in H.
  destruct H as (l' & n & ls & ds & H1 & H2 & H3 & _). assert (l' = l) as ->. { apply u8_to_u32_iff in U; [|now apply c_string_bytes]. apply u8_to_u32_iff in H1; [|now apply c_string_bytes]. congruence. }
  split; [|exact H3]. apply Forall_forall. intros c I X. apply H2. apply Exists_exists. exists c. auto.
Qed.
