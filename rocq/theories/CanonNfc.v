(** NFC and canonical equivalence. *)
From Coq Require Import Lia Bool Permutation.
From Verif Require Import Base PunyBase Uenv DataTypes DataTr46 SpecUtf8 SpecTables SpecLabel SpecLookup SpecNfc DataUcd Ucd UcdProofs UcdTree Gentr46 Tr46Facts
  Utf8 Utf8Proofs MapProofs BaseTop StableProofs Idna Lookup LabelProofs SpecCanon CanonProofs CanonTop.

Lemma canon_app : forall l m x y, canon l m -> canon (x ++ l ++ y) (x ++ m ++ y).
Proof.
  intros l m x y H. induction H as [l|l m H IH|l m n H1 IH1 H2 IH2|a c b|a c d b H1 H2 H3].
  - apply canon_refl.
  - now apply canon_sym.
  - eapply canon_trans; eauto.
  - replace (x ++ (a ++ c :: b) ++ y) with ((x ++ a) ++ c :: b ++ y) by (rewrite <- !app_assoc; reflexivity).
    replace (x ++ (a ++ decomp1 c ++ b) ++ y) with ((x ++ a) ++ decomp1 c ++ b ++ y) by (rewrite <- !app_assoc; reflexivity). apply canon_decompose.
  - replace (x ++ (a ++ c :: d :: b) ++ y) with ((x ++ a) ++ c :: d :: b ++ y) by (rewrite <- !app_assoc; reflexivity).
    replace (x ++ (a ++ d :: c :: b) ++ y) with ((x ++ a) ++ d :: c :: b ++ y) by (rewrite <- !app_assoc; reflexivity). now apply canon_reorder.
Qed.
Lemma canon_past : forall c q r, 0 < ccc c -> Forall (fun d => 0 < ccc d /\ ccc d <> ccc c) q -> canon (c :: q ++ r) (q ++ c :: r).
Proof.
  intros c q r P F. induction F as [|d q (H1 & H2) F IH]; [apply canon_refl|]. cbn [app]. eapply canon_trans; [apply (canon_reorder [] c d); auto|].
  pose proof (canon_app _ _ [d] [] IH) as E. rewrite !app_nil_r in E. exact E.
Qed.
(** Sorting. *)
Definition follows (c d : Z) : Prop := ccc d = 0 \/ ccc c <= ccc d.
Fixpoint inorder (l : list Z) : Prop := match l with [] => True | c :: r => match r with [] => True | d :: _ => follows c d end /\ inorder r end.
Lemma sink_inorder : forall c l, inorder l -> inorder (sink c l) /\ (forall x, (match l with [] => True | d :: _ => follows x d end) -> follows x c -> match sink c l with [] => True | d :: _ => follows x d end).
Proof.
  intros c l. induction l as [|d r IH]; intros H; cbn [sink]; [cbn; auto|]. cbn [inorder] in H. destruct H as (H1 & H2). destruct (IH H2) as (A & B).
  destruct ((0 <? ccc d) && (ccc d <? ccc c)) eqn:E.
  - rewrite andb_true_iff, !Z.ltb_lt in E. split; [|intros x Hx _; exact Hx]. cbn [inorder]. split; [|exact A]. apply B; [exact H1|right; lia].
  - split; [|intros x _ Hx; exact Hx]. cbn [inorder]. split; [|auto]. pose proof (ccc_nonneg d). unfold follows.
    rewrite andb_false_iff, !Z.ltb_ge in E. lia.
Qed.
Lemma order_inorder : forall l, inorder (order l).
Proof. induction l as [|c l IH]; cbn [order]; [exact I|]. now apply sink_inorder. Qed.

(** Composing. *)
Definition check_pair (tc : rtree Z) (td : rtree (option (list Z))) (e : Z * Z * Z) : bool :=
  let '(a, b, v) := e in list_eqb (torder tc (tdecomp td v)) (torder tc (tdecomp td a ++ tdecomp td b)).
Lemma pairs_checked : (let tc := ccc_tree in let td := decomp_tree in forallb (check_pair tc td) ucd_comp) = true.
Proof. vm_cast_no_check (eq_refl true). Qed.
Lemma jamo_decomp : forall c, In c jamo -> decomp1 c = [c].
Proof. intros c H. apply list_eqb_iff. exact (proj1 (forallb_forall _ _) jamo_final c H). Qed.
Lemma comp_canon : forall a b v, comp a b = Some v -> canon [v] [a; b].
Proof.
  intros a b v H. apply canon_iff. unfold nfd. cbn [flat_map]. rewrite !app_nil_r. unfold comp in H.
  destruct ((4352 <=? a) && (a <=? 4370) && (4449 <=? b) && (b <=? 4469)) eqn:E1.
  { apply some_inj in H. rewrite !andb_true_iff, !Z.leb_le in E1. f_equal.
    rewrite (jamo_decomp a), (jamo_decomp b).
    2:{ unfold jamo. apply in_or_app. right. apply in_or_app. left. apply range_in. lia. }
    2:{ unfold jamo. apply in_or_app. left. apply range_in. lia. }
    set (x := a - 4352) in *. set (y := b - 4449) in *.
    unfold decomp1. assert (hangul v = true) as -> by (unfold hangul; rewrite andb_true_iff, !Z.leb_le; lia). cbv zeta.
    replace (v - 44032) with ((x * 21 + y) * 28) by lia. rewrite Z.mod_mul by lia. rewrite Z.eqb_refl.
    replace ((x * 21 + y) * 28) with (y * 28 + x * 588) by lia. rewrite Z.mod_add, Z.div_add by lia. rewrite (Z.mod_small (y * 28) 588), (Z.div_small (y * 28) 588) by lia.
    rewrite Z.div_mul by lia. cbn [app]. repeat f_equal; lia. }
  destruct (hangul a && ((a - 44032) mod 28 =? 0) && (4520 <=? b) && (b <=? 4546)) eqn:E2.
  { apply some_inj in H. rewrite !andb_true_iff, !Z.leb_le, Z.eqb_eq in E2. destruct E2 as (((E2 & E3) & E4) & E5). f_equal.
    rewrite (jamo_decomp b). 2:{ unfold jamo. apply in_or_app. right. apply in_or_app. right. apply range_in. lia. }
    unfold decomp1. rewrite E2. unfold hangul in E2. rewrite andb_true_iff, !Z.leb_le in E2.
    set (i := a - 44032) in *. pose proof (Z.div_mod i 28 ltac:(lia)) as D. rewrite E3 in D. set (q := i / 28) in *.
    assert (0 <= q <= 398) by lia.
    assert (hangul v = true) as -> by (unfold hangul; rewrite andb_true_iff, !Z.leb_le; lia). cbv zeta. rewrite E3, Z.eqb_refl.
    replace (v - 44032) with ((b - 4519) + q * 28) by lia. rewrite Z.mod_add by lia. rewrite (Z.mod_small (b - 4519) 28) by lia.
    assert (b - 4519 =? 0 = false) as -> by (apply Z.eqb_neq; lia). replace i with (q * 28) by lia.
    change 588 with (28 * 21). rewrite <- !Z.div_div by lia. rewrite Z.div_add by lia. rewrite (Z.div_small (b - 4519) 28) by lia. rewrite Z.div_mul by lia.
    rewrite Z.add_0_l. replace (28 * 21) with (28 * 21) by lia.
    assert (X : forall j, 0 <= j < 28 -> ((j + q * 28) mod (28 * 21)) / 28 = q mod 21).
    { intros j Hj. rewrite Z.rem_mul_r by lia. rewrite Z.mod_add by lia. rewrite (Z.mod_small j 28) by lia. rewrite Z.div_add by lia.
      rewrite (Z.div_small j 28) by lia. rewrite Z.add_0_l. replace (28 * (q mod 21)) with ((q mod 21) * 28) by lia. rewrite Z.div_add by lia.
      rewrite (Z.div_small j 28) by lia. lia. }
    rewrite X by lia. pose proof (X 0 ltac:(lia)) as X0. rewrite Z.add_0_l in X0. rewrite X0. cbn [app]. repeat f_equal; lia. }
  apply assoc2_in in H. pose proof pairs_checked as C. cbv zeta in C. pose proof (proj1 (forallb_forall _ _) C _ H) as P. unfold check_pair in P.
  apply list_eqb_iff in P. rewrite !torder_ok, !tdecomp_ok in P. exact P.
Qed.
(** [p]: marks in reverse order, each belonging behind the next. *)
Fixpoint stack (p : list Z) : Prop := match p with [] => True | d :: r => 0 < ccc d /\ match r with [] => True | e :: _ => ccc e <= ccc d end /\ stack r end.
Definition joins (p l : list Z) : Prop := match p, l with d :: _, c :: _ => follows d c | _, _ => True end.
Lemma stack_below : forall p d r, p = d :: r -> stack p -> Forall (fun e => 0 < ccc e <= ccc d) p.
Proof.
  induction p as [|x p IH]; intros d r E S; [discriminate E|]. injection E as -> ->. cbn [stack] in S. destruct S as (S1 & S2 & S3). constructor; [lia|].
  destruct r as [|e r]; [constructor|]. eapply Forall_impl; [|eapply IH; eauto]. cbn beta. intros y Hy. lia.
Qed.
Lemma compose_canon : forall l s p, stack p -> inorder l -> joins p l -> canon (compose s p l) (s :: rev p ++ l).
Proof.
  induction l as [|c l IH]; intros s p S O J; cbn [compose]; [rewrite app_nil_r; apply canon_refl|].
  cbn [inorder] in O. destruct O as (O1 & O2).
  assert (REST : canon (if ccc c =? 0 then s :: rev p ++ compose c [] l else compose s (c :: p) l) (s :: rev p ++ c :: l)).
  { destruct (ccc c =? 0) eqn:E.
    - pose proof (canon_app _ _ (s :: rev p) [] (IH c [] I O2 I)) as G. rewrite !app_nil_r in G. exact G.
    - apply Z.eqb_neq in E. pose proof (ccc_nonneg c). eapply canon_trans; [apply IH|].
      + cbn [stack]. split; [lia|]. split; [|exact S]. destruct p as [|d p]; [exact I|]. cbn [joins] in J. unfold follows in J. lia.
      + exact O2.
      + cbn [joins]. destruct l; [exact I|exact O1].
      + cbn [rev]. rewrite <- app_assoc. apply canon_refl. }
  destruct (blocked p c) eqn:B; [exact REST|]. destruct (comp s c) as [x|] eqn:E; [|exact REST]. clear REST.
  eapply canon_trans; [apply IH; auto|].
  - destruct p as [|d p]; [exact I|]. cbn [blocked joins] in *. apply Z.leb_gt in B. destruct l as [|c' l]; [exact I|]. unfold follows in *. lia.
  - eapply canon_trans; [exact (canon_app _ _ [] (rev p ++ l) (comp_canon _ _ _ E))|]. cbn [app].
    destruct p as [|d p]; [apply canon_refl|]. cbn [blocked] in B. apply Z.leb_gt in B.
    pose proof (stack_below _ _ _ eq_refl S) as F. inversion F as [|? ? F0 F1]; subst.
    pose proof (canon_past c (rev (d :: p)) l ltac:(lia)) as G.
    assert (Forall (fun e => 0 < ccc e /\ ccc e <> ccc c) (rev (d :: p))) as FF.
    { apply Forall_rev. eapply Forall_impl; [|exact F]. cbn beta. intros y Hy. lia. }
    specialize (G FF). pose proof (canon_app _ _ [s] [] G) as G'. rewrite !app_nil_r in G'. exact G'.
Qed.
Lemma recompose_canon : forall l, inorder l -> canon (recompose l) l.
Proof.
  induction l as [|c l IH]; intros O; cbn [recompose]; [apply canon_refl|]. cbn [inorder] in O. destruct O as (_ & O). destruct (ccc c =? 0).
  - apply compose_canon; auto; exact I.
  - pose proof (canon_app _ _ [c] [] (IH O)) as G. rewrite !app_nil_r in G. exact G.
Qed.
Lemma canon_nfd : forall l, canon (nfd l) l.
Proof.
  intros l. apply canon_iff. unfold nfd at 1. transitivity (order (flat_map decomp1 (flat_map decomp1 l))).
  - apply order_iff. unfold nfd. apply (sw_map any); [intros; now apply decomp_class|]. apply sw_sym, order_any.
  - unfold nfd. rewrite flat_map_flat_map. erewrite flat_map_ext; [reflexivity|]. intros c. apply decomp_final.
Qed.
Lemma canon_nfc : forall l, canon (nfc l) l.
Proof. intros l. eapply canon_trans; [apply recompose_canon, order_inorder|]. apply canon_nfd. Qed.
Lemma nfc_decides : forall l m, nfc l = nfc m <-> canon l m.
Proof.
  intros l m. split; [|apply nfc_canon_eq]. intros H. eapply canon_trans; [apply canon_sym, canon_nfc|]. rewrite H. apply canon_nfc.
Qed.

(** Names without U+0345. *)
Lemma sw_perm : forall P l m, sw P l m -> Permutation l m.
Proof. induction 1; [reflexivity|]. etransitivity; [|eassumption]. apply Permutation_app_head. constructor. Qed.
Lemma iota_free_canon : forall l m, canon l m -> iota_free l -> iota_free m.
Proof.
  intros l m C F I. apply F. apply canon_iff in C. unfold nfd in C. apply order_iff, sw_perm in C. eapply Permutation_in; [apply Permutation_sym, C|exact I].
Qed.
Lemma iota_free_order : forall l, iota_free l -> iota_in_order l.
Proof.
  intros l F. unfold iota_in_order, iota_free in *. induction (flat_map decomp1 l) as [|c r IH]; [exact I|]. cbn [iota_last]. split; [intros ->; exfalso; apply F; now left|].
  apply IH. intros H. apply F. now right.
Qed.
