(** Alike names have one result. *)
From Coq Require Import Lia Bool.
From Verif Require Import Base PunyBase Uenv DataTypes DataTr46 SpecUtf8 SpecTables SpecLabel SpecLookup SpecNfc DataUcd DataCase Ucd UcdProofs UcdTree Gentr46 Tr46Facts
  Utf8 Utf8Proofs MapProofs BaseTop StableProofs Idna Lookup LabelProofs LookupProofs LookupTr46 LookupMisc LookupMap SpecCanon CanonProofs CanonTop CanonNfc CanonCases SpecAlike.

(** One character and a variant: the same mapping up to canonical equivalence,
    or a reason. *)
Definition check_variant (t : tree) (tc : rtree Z) (td : rtree (option (list Z))) (tr : bool) (e : Z * list Z) : bool :=
  let '(c, x) := e in
  match tmap t tr c, tmaps t tr x with
  | Some y, Some z => list_eqb y z || list_eqb (torder tc (flat_map (tdecomp td) y)) (torder tc (flat_map (tdecomp td) z)) || bad t c || existsb (bad t) x || odd tr c
  | _, _ => false
  end.
Definition all_variants (t : tree) (tc : rtree Z) (td : rtree (option (list Z))) (tr : bool) : bool :=
  forallb (check_variant t tc td tr) case_lower && (forallb (check_variant t tc td tr) case_upper && (forallb (check_variant t tc td tr) case_title &&
  (forallb (check_variant t tc td tr) case_fold && forallb (check_variant t tc td tr) ucd_compat))).
Lemma variants_checked : (let t := idna_tree in let tc := ccc_tree in let td := decomp_tree in all_variants t tc td false && all_variants t tc td true) = true.
Proof. vm_cast_no_check (eq_refl true). Qed.
Lemma variants_checks : forall tr, all_variants idna_tree ccc_tree decomp_tree tr = true.
Proof. intros tr. pose proof variants_checked as H. cbv zeta in H. apply andb_true_iff in H. destruct H as (H1 & H2). destruct tr; [exact H2|exact H1]. Qed.
Lemma check_variant_ok : forall tr c x, check_variant idna_tree ccc_tree decomp_tree tr (c, x) = true -> odd tr c = false -> allowed (c :: x) ->
  canon (map1 tr false c) (uts46_map tr false x).
Proof.
  intros tr c x C O A. unfold check_variant in C. destruct (tmap idna_tree tr c) as [y|] eqn:E1; [|discriminate C]. destruct (tmaps idna_tree tr x) as [z|] eqn:E2; [|discriminate C].
  apply tmap_ok in E1. apply tmaps_ok in E2. unfold uts46_map. rewrite E1, E2. unfold allowed in A. rewrite Forall_forall in A.
  rewrite !orb_true_iff in C. destruct C as [[[[C|C]|C]|C]|C].
  - apply list_eqb_iff in C. rewrite C. apply canon_refl.
  - apply list_eqb_iff in C. apply canon_iff. unfold nfd. rewrite !torder_ok, !(flat_map_ext _ _ tdecomp_ok) in C. exact C.
  - apply bad_ok in C. exfalso. apply (A c); [now left|exact C].
  - apply existsb_exists in C. destruct C as (d & I & C). apply bad_ok in C. exfalso. apply (A d); [now right|exact C].
  - congruence.
Qed.
Lemma from_cases : forall t c, from t c = [c] \/ In (c, from t c) t.
Proof. intros t c. unfold from. destruct (assoc c t) eqn:E; [right; now apply assoc_in|now left]. Qed.
Lemma map_one : forall tr std3 c, uts46_map tr std3 [c] = map1 tr std3 c.
Proof. intros. unfold uts46_map. cbn [flat_map]. apply app_nil_r. Qed.
Lemma decomp_mapped : forall tr c, canon (map1 tr false c) (uts46_map tr false (decomp1 c)).
Proof. intros tr c. apply canon_iff. unfold nfd. apply order_iff. unfold uts46_map. rewrite flat_map_flat_map. apply char_mapped. Qed.
Lemma variant_mapped : forall tr c x, variant c x -> odd tr c = false -> allowed (c :: x) -> canon (map1 tr false c) (uts46_map tr false x).
Proof.
  intros tr c x V O A. pose proof (variants_checks tr) as H. unfold all_variants in H.
  apply andb_true_iff in H. destruct H as (H1 & H). apply andb_true_iff in H. destruct H as (H2 & H). apply andb_true_iff in H. destruct H as (H3 & H). apply andb_true_iff in H. destruct H as (H4 & H5).
  assert (G : forall t, forallb (check_variant idna_tree ccc_tree decomp_tree tr) t = true -> allowed (c :: from t c) -> canon (map1 tr false c) (uts46_map tr false (from t c))).
  { intros t Ht At. destruct (from_cases t c) as [E|I]; [rewrite E, map_one; apply canon_refl|]. apply check_variant_ok; auto. exact (proj1 (forallb_forall _ _) Ht _ I). }
  destruct V as [c|c|c|c|c|c]; try (apply G; assumption).
  - apply decomp_mapped.
  - unfold compat in *. destruct (assoc c ucd_compat) as [l|] eqn:E; [|apply decomp_mapped]. apply assoc_in in E. apply check_variant_ok; auto.
    exact (proj1 (forallb_forall _ _) H5 _ E).
Qed.
Lemma map_app : forall tr std3 a b, uts46_map tr std3 (a ++ b) = uts46_map tr std3 a ++ uts46_map tr std3 b.
Proof. intros. unfold uts46_map. apply flat_map_app. Qed.
Lemma std3_map : forall tr std3 l, (std3 = true -> std3_free l) -> uts46_map tr std3 l = uts46_map tr false l.
Proof. intros tr std3 l H. apply map_std3_free. destruct std3; auto. Qed.
Lemma map1_std3 : forall tr c, map1 tr true c = map1 tr false c \/ map1 tr true c = [].
Proof. intros tr c. unfold map1. destruct (status_of c); auto. Qed.
Lemma mark_class : forall tr std3 c, c <> iota_below -> 0 < ccc c -> same_class (ccc c) (flat_map decomp1 (map1 tr std3 c)).
Proof.
  intros tr std3 c N P. pose proof (mark_mapped tr c N P) as H. destruct std3; [|exact H]. destruct (map1_std3 tr c) as [E|E]; rewrite E; [exact H|constructor].
Qed.
Lemma marks_mapped : forall tr std3 c d, 0 < ccc c -> 0 < ccc d -> ccc c <> ccc d -> c <> iota_below -> d <> iota_below ->
  canon (uts46_map tr std3 [c; d]) (uts46_map tr std3 [d; c]).
Proof.
  intros tr std3 c d H1 H2 H3 N1 N2. apply canon_iff. unfold nfd. apply order_iff. unfold uts46_map. cbn [flat_map]. rewrite !app_nil_r, !flat_map_app.
  eapply (sw_blocks (ccc c) (ccc d)); auto using mark_class.
Qed.
Lemma alike_mapped : forall tr std3 l m, alike tr std3 l m -> canon (uts46_map tr std3 l) (uts46_map tr std3 m).
Proof.
  intros tr std3 l m H. induction H as [l|l m H IH|l m n H1 IH1 H2 IH2|a c x b V O A S|a c d b H1 H2 H3 N1 N2].
  - apply canon_refl.
  - now apply canon_sym.
  - eapply canon_trans; eauto.
  - rewrite !map_app. change (c :: b) with ([c] ++ b). rewrite map_app. apply canon_app.
    assert (S12 : std3 = true -> std3_free [c] /\ std3_free x) by (intros E; specialize (S E); unfold std3_free in *; inversion S; subst; auto).
    rewrite (std3_map tr std3 [c]), (std3_map tr std3 x) by (intros E; now apply S12). rewrite map_one. now apply variant_mapped.
  - change (c :: d :: b) with ([c; d] ++ b). change (d :: c :: b) with ([d; c] ++ b). rewrite !map_app. apply canon_app. now apply marks_mapped.
Qed.
Lemma alike_allowed : forall tr std3 l m, alike tr std3 l m -> (allowed l <-> allowed m).
Proof.
  intros tr std3 l m H. unfold allowed. induction H as [l|l m H IH|l m n H1 IH1 H2 IH2|a c x b V O A S|a c d b H1 H2 H3 N1 N2]; try tauto.
  - unfold allowed in A. inversion A; subst. rewrite !Forall_app, Forall_cons_iff. tauto.
  - rewrite !Forall_app, !Forall_cons_iff. tauto.
Qed.
Lemma allowed_iff : forall l, existsb disallowedb l = false <-> allowed l.
Proof.
  intros l. unfold allowed. rewrite Forall_forall. split.
  - intros H c I X. assert (existsb disallowedb l = true) as Y; [|congruence]. apply existsb_exists. exists c. split; [exact I|]. unfold disallowedb. now rewrite X.
  - intros H. destruct (existsb disallowedb l) eqn:X; [|reflexivity]. apply existsb_exists in X. destruct X as (c & I & X). unfold disallowedb in X.
    exfalso. apply (H c I). destruct (status_of c); try discriminate X; reflexivity.
Qed.
Lemma lookup_alike : forall s1 s2 l1 l2 f, c_string s1 -> c_string s2 -> utf8 l1 s1 -> utf8 l2 s2 -> opt_no_tr46 f = false ->
  alike (opt_transitional f) (opt_std3 f) l1 l2 -> mapped_length f l1 < 255 -> mapped_length f l2 < 255 -> lookup_u8 ucd s1 f = lookup_u8 ucd s2 f.
Proof.
  intros s1 s2 l1 l2 f C1 C2 U1 U2 N H Z1 Z2. unfold mapped_length in *. unfold lookup_u8. destruct (set_flags_spec f) as [(B & E)|(B & E)]; rewrite E; [reflexivity|]. cbn [bind].
  rewrite has_no_tr46, eff_no_tr46, N. cbn [negb]. rewrite !tr46_eq by (auto using ucd_nfc_ok). unfold tr46_spec.
  apply u8_to_u32_iff in U1; [|now apply c_string_bytes]. apply u8_to_u32_iff in U2; [|now apply c_string_bytes]. rewrite U1, U2.
  assert (D : existsb disallowedb l1 = existsb disallowedb l2).
  { pose proof (alike_allowed _ _ _ _ H) as A. rewrite <- !allowed_iff in A. destruct (existsb disallowedb l1), (existsb disallowedb l2); auto; [discriminate (proj2 A eq_refl)|discriminate (proj1 A eq_refl)]. }
  rewrite D. destruct (existsb disallowedb l2); [reflexivity|]. rewrite !eff_transitional, !eff_std3.
  rewrite (proj2 (Z.leb_gt 255 _) Z1), (proj2 (Z.leb_gt 255 _) Z2). cbn [ue_nfc ucd].
  rewrite (nfc_canon_eq _ _ (alike_mapped _ _ _ _ H)). reflexivity.
Qed.

(** Whole names. *)
Lemma alike_app : forall tr std3 l m x y, alike tr std3 l m -> alike tr std3 (x ++ l ++ y) (x ++ m ++ y).
Proof.
  intros tr std3 l m x y H. induction H as [l|l m H IH|l m n H1 IH1 H2 IH2|a c v b V O A S|a c d b H1 H2 H3 N1 N2].
  - apply alike_refl.
  - now apply alike_sym.
  - eapply alike_trans; eauto.
  - replace (x ++ (a ++ c :: b) ++ y) with ((x ++ a) ++ c :: b ++ y) by (rewrite <- !app_assoc; reflexivity).
    replace (x ++ (a ++ v ++ b) ++ y) with ((x ++ a) ++ v ++ b ++ y) by (rewrite <- !app_assoc; reflexivity). now apply alike_variant.
  - replace (x ++ (a ++ c :: d :: b) ++ y) with ((x ++ a) ++ c :: d :: b ++ y) by (rewrite <- !app_assoc; reflexivity).
    replace (x ++ (a ++ d :: c :: b) ++ y) with ((x ++ a) ++ d :: c :: b ++ y) by (rewrite <- !app_assoc; reflexivity). now apply alike_reorder.
Qed.
Lemma alike_each : forall tr std3 (f : Z -> list Z) l, (forall c, variant c (f c)) -> Forall (fun c => odd tr c = false \/ f c = [c]) l -> allowed l -> allowed (flat_map f l) ->
  (std3 = true -> std3_free l /\ std3_free (flat_map f l)) -> alike tr std3 l (flat_map f l).
Proof.
  intros tr std3 f l V. induction l as [|c l IH]; intros O A A' S; cbn [flat_map]; [apply alike_refl|]. inversion O as [|? ? O1 O2]; subst. inversion A as [|? ? A1 A2]; subst.
  cbn [flat_map] in A', S. unfold allowed in A'. apply Forall_app in A'. destruct A' as (B1 & B2).
  eapply alike_trans; [instantiate (1 := f c ++ l)|].
  - destruct O1 as [O1|O1]; [|rewrite O1; apply alike_refl]. apply (alike_variant tr std3 [] c (f c) l); auto.
    + constructor; assumption.
    + intros E. destruct (S E) as (S1 & S2). inversion S1; subst. unfold std3_free in *. apply Forall_app in S2. constructor; tauto.
  - pose proof (alike_app tr std3 l (flat_map f l) (f c) []) as G. rewrite !app_nil_r in G. apply G, IH; auto.
    intros E. destruct (S E) as (S1 & S2). inversion S1; subst. unfold std3_free in *. apply Forall_app in S2. tauto.
Qed.

Lemma odd_whole : forall tr c, odd tr c = true -> decomp1 c = [c].
Proof.
  intros tr c H. unfold odd in H. rewrite orb_true_iff, andb_true_iff in H. destruct H as [H|(_ & H)].
  - apply Z.eqb_eq in H. subst. vm_compute. reflexivity.
  - apply existsb_exists in H. destruct H as (d & I & E). apply Z.eqb_eq in E. subst d. cbn [In] in I.
    repeat (destruct I as [<-|I]; [vm_compute; reflexivity|]). destruct I.
Qed.
Lemma sw_alike : forall tr std3 l m, sw not_iota l m -> alike tr std3 l m.
Proof. intros tr std3 l m H. induction H as [|a c d b m H1 H2 H3 H4 H5 H IH]; [apply alike_refl|]. eapply alike_trans; [apply alike_reorder; auto|exact IH]. Qed.
Lemma canon_alike : forall tr l m, canon l m -> allowed l -> allowed m -> iota_in_order l -> iota_in_order m -> alike tr false l m.
Proof.
  intros tr l m C A B I J. assert (D : forall x, allowed x -> alike tr false x (flat_map decomp1 x)).
  { intros x X. apply alike_each.
    - intros c. apply variant_canon.
    - apply Forall_forall. intros c _. destruct (odd tr c) eqn:E; [right; now apply (odd_whole tr)|now left].
    - exact X.
    - unfold allowed in *. apply Forall_forall. intros c K. apply in_flat_map in K. destruct K as (d & K1 & K2). rewrite Forall_forall in X.
      exact (proj1 (Forall_forall _ _) (decomp_allowed d (X d K1)) c K2).
    - discriminate. }
  eapply alike_trans; [apply D, A|]. eapply alike_trans; [|apply alike_sym, D, B]. apply sw_alike. apply canon_iff in C. now apply order_eq_not_iota.
Qed.
Lemma sw_canon : forall (P : Z -> Prop) l m, sw P l m -> canon l m.
Proof. intros P l m H. induction H as [|a c d b m H1 H2 H3 H4 H5 H IH]; [apply canon_refl|]. eapply canon_trans; [apply canon_reorder; auto|exact IH]. Qed.
Lemma order_all : forall (P : Z -> Prop) l, Forall P l -> Forall P (order l).
Proof. intros P l F. induction F; cbn [order]; [constructor|]. now apply sink_all. Qed.
Lemma recompose_allowed : forall m, allowed m -> allowed (recompose m).
Proof.
  unfold allowed. induction m as [|c m IH]; intros G; cbn [recompose]; [constructor|]. inversion G; subst. destruct (ccc c =? 0); [apply compose_allowed; auto; constructor|auto].
Qed.
Lemma nfk_alike : forall tr l, Forall (fun c => odd tr c = false \/ compat c = [c]) l -> allowed l -> allowed (flat_map compat l) -> iota_free (flat_map compat l) ->
  alike tr false l (nfkc l) /\ alike tr false l (nfkd l).
Proof.
  intros tr l O A B F. assert (S : alike tr false l (flat_map compat l)) by (apply alike_each; auto; [intros c; apply variant_compat|discriminate]).
  assert (C1 : canon (flat_map compat l) (nfkd l)) by (eapply (sw_canon any); apply order_any).
  assert (C2 : canon (flat_map compat l) (nfkc l)) by (eapply canon_trans; [exact C1|]; apply canon_sym, recompose_canon, order_inorder).
  assert (A1 : allowed (nfkd l)) by (now apply order_all). assert (A2 : allowed (nfkc l)) by (now apply recompose_allowed).
  split; (eapply alike_trans; [exact S|]; apply canon_alike; auto; apply iota_free_order; auto; eapply iota_free_canon; eauto).
Qed.
