(** The character data of [Ucd] as search trees, to make checks over all of it
    cheap. *)
From Coq Require Import Lia Bool.
From Verif Require Import Base DataUcd Ucd.
Local Open Scope list_scope.

Section Tree.
  Context {A : Type}.
  Inductive rtree := RLeaf | RNode (l : rtree) (lo hi : Z) (v : A) (r : rtree).
  Fixpoint rbuild (n : nat) (rs : list (Z * Z * A)) : rtree * list (Z * Z * A) :=
    match n with
    | O => (RLeaf, rs)
    | Datatypes.S n' =>
        let (l, rs1) := rbuild n' rs in
        match rs1 with
        | [] => (l, [])
        | (lo, hi, v) :: rs2 => let (rt, rs3) := rbuild n' rs2 in (RNode l lo hi v rt, rs3)
        end
    end.
  Fixpoint rget (t : rtree) (c : Z) (d : A) : A :=
    match t with
    | RLeaf => d
    | RNode l lo hi v r => if c <? lo then rget l c d else if c <=? hi then v else rget r c d
    end.
  Fixpoint rlist (t : rtree) : list (Z * Z * A) := match t with RLeaf => [] | RNode l lo hi v r => rlist l ++ (lo, hi, v) :: rlist r end.
  Lemma rbuild_list : forall n rs t rest, rbuild n rs = (t, rest) -> rs = rlist t ++ rest.
  Proof.
    induction n as [|n IH]; intros rs t rest H; cbn [rbuild] in H; [injection H as <- <-; reflexivity|].
    destruct (rbuild n rs) as (l & rs1) eqn:E1. apply IH in E1. destruct rs1 as [|((lo & hi) & v) rs2]; [injection H as <- <-; exact E1|].
    destruct (rbuild n rs2) as (rt & rs3) eqn:E2. apply IH in E2. injection H as <- <-. cbn [rlist]. rewrite E1, E2, <- app_assoc. reflexivity.
  Qed.
  Fixpoint asc (b : Z) (l : list (Z * Z * A)) : bool :=
    match l with [] => true | (lo, hi, _) :: r => (b <? lo) && (lo <=? hi) && asc hi r end.
  Definition below (x : Z) (e : Z * Z * A) : Prop := let '(lo, hi, _) := e in lo <= hi < x.
  Lemma asc_app : forall a b lo hi v r, asc b (a ++ (lo, hi, v) :: r) = true -> asc b a = true /\ Forall (below lo) a /\ b < lo /\ asc hi r = true.
  Proof.
    induction a as [|((l & h) & w) a IH]; intros b lo hi v r H; cbn [app asc] in *.
    - rewrite !andb_true_iff, Z.ltb_lt, Z.leb_le in H. destruct H as ((H1 & H2) & H3). repeat split; auto.
    - rewrite !andb_true_iff, Z.ltb_lt, Z.leb_le in H. destruct H as ((H1 & H2) & H3). apply IH in H3. destruct H3 as (B1 & B2 & B3 & B4).
      split; [rewrite !andb_true_iff, Z.ltb_lt, Z.leb_le; auto|]. split; [constructor; [cbn; lia|exact B2]|]. split; [lia|exact B4].
  Qed.
  Lemma ranges_left : forall c (d : A) a lo hi v r, c < lo -> in_ranges c (a ++ (lo, hi, v) :: r) d = in_ranges c a d.
  Proof.
    intros c d a lo hi v r H. induction a as [|((l & h) & w) a IH]; cbn [app in_ranges]; [now rewrite (proj2 (Z.ltb_lt _ _) H)|].
    destruct (c <? l); [reflexivity|]. destruct (c <=? h); [reflexivity|exact IH].
  Qed.
  Lemma ranges_right : forall c (d : A) a lo r, Forall (below lo) a -> lo <= c -> in_ranges c (a ++ r) d = in_ranges c r d.
  Proof.
    intros c d a lo r F H. induction F as [|((l & h) & w) a B F IH]; cbn [app in_ranges]; [reflexivity|]. cbn in B.
    rewrite (proj2 (Z.ltb_ge c l)) by lia. rewrite (proj2 (Z.leb_gt c h)) by lia. exact IH.
  Qed.
  Lemma rget_list : forall t b c (d : A), asc b (rlist t) = true -> rget t c d = in_ranges c (rlist t) d.
  Proof.
    induction t as [|l IHl lo hi v r IHr]; intros b c d H; [reflexivity|]. cbn [rget rlist] in *. apply asc_app in H. destruct H as (H1 & H2 & H3 & H4).
    destruct (c <? lo) eqn:E; [apply Z.ltb_lt in E; rewrite ranges_left by exact E; eapply IHl, H1|]. apply Z.ltb_ge in E.
    rewrite (ranges_right c d _ lo) by auto. cbn [in_ranges]. rewrite (proj2 (Z.ltb_ge c lo)) by lia. destruct (c <=? hi); [reflexivity|]. eapply IHr, H4.
  Qed.
  Lemma rget_ok : forall n rs t b c (d : A), rbuild n rs = (t, []) -> asc b rs = true -> rget t c d = in_ranges c rs d.
  Proof. intros n rs t b c d E H. apply rbuild_list in E. rewrite app_nil_r in E. subst rs. eapply rget_list, H. Qed.
End Tree.
Arguments rtree : clear implicits.

Definition ccc_tree : rtree Z := fst (rbuild 10 ucd_ccc).
Definition decomp_ranges : list (Z * Z * option (list Z)) := map (fun e => let '(k, v) := e in (k, k, Some v)) ucd_decomp.
Definition decomp_tree : rtree (option (list Z)) := fst (rbuild 12 decomp_ranges).
Definition is_nil {B} (l : list B) : bool := match l with [] => true | _ => false end.
Lemma trees_checked : is_nil (snd (rbuild 10 ucd_ccc)) && asc (-1) ucd_ccc && is_nil (snd (rbuild 12 decomp_ranges)) && asc (-1) decomp_ranges = true.
Proof. vm_compute. reflexivity. Qed.
Lemma assoc_ranges : forall c t, in_ranges c (map (fun e : Z * list Z => let '(k, v) := e in (k, k, Some v)) t) None = assoc c t.
Proof.
  intros c t. induction t as [|(k & v) t IH]; [reflexivity|]. cbn [map in_ranges assoc]. rewrite IH.
  destruct (Z.compare_spec c k) as [E|E|E].
  - subst. rewrite Z.ltb_irrefl, Z.leb_refl, Z.eqb_refl. reflexivity.
  - rewrite (proj2 (Z.ltb_lt c k)) by lia. rewrite (proj2 (Z.eqb_neq c k)) by lia. reflexivity.
  - rewrite (proj2 (Z.ltb_ge c k)) by lia. rewrite (proj2 (Z.leb_gt c k)) by lia. rewrite (proj2 (Z.eqb_neq c k)) by lia. reflexivity.
Qed.
Lemma is_nil_iff : forall B (l : list B), is_nil l = true -> l = [].
Proof. intros B [|x l] H; [reflexivity|discriminate H]. Qed.
Definition tccc (t : rtree Z) (c : Z) : Z := rget t c 0.
Definition tdecomp (t : rtree (option (list Z))) (c : Z) : list Z :=
  if hangul c then decomp1 c else match rget t c None with Some l => l | None => [c] end.
Lemma tccc_ok : forall c, tccc ccc_tree c = ccc c.
Proof.
  intros c. pose proof trees_checked as H. rewrite !andb_true_iff in H. destruct H as (((H1 & H2) & _) & _). apply is_nil_iff in H1.
  unfold tccc, ccc, ccc_tree. destruct (rbuild 10 ucd_ccc) as (t & r) eqn:E. cbn [fst snd] in *. subst r. eapply rget_ok; eauto.
Qed.
Lemma tdecomp_ok : forall c, tdecomp decomp_tree c = decomp1 c.
Proof.
  intros c. pose proof trees_checked as H. rewrite !andb_true_iff in H. destruct H as ((_ & H1) & H2). apply is_nil_iff in H1.
  unfold tdecomp, decomp1, decomp_tree. destruct (hangul c); [reflexivity|]. rewrite <- assoc_ranges. fold decomp_ranges.
  destruct (rbuild 12 decomp_ranges) as (t & r) eqn:E. cbn [fst snd] in *. subst r. erewrite rget_ok; eauto.
Qed.

(** Canonical ordering with the tree. *)
Fixpoint tsink (t : rtree Z) (c : Z) (l : list Z) : list Z :=
  match l with
  | [] => [c]
  | d :: r => if (0 <? tccc t d) && (tccc t d <? tccc t c) then d :: tsink t c r else c :: d :: r
  end.
Fixpoint torder (t : rtree Z) (l : list Z) : list Z := match l with [] => [] | c :: r => tsink t c (torder t r) end.
Lemma torder_ok : forall l, torder ccc_tree l = order l.
Proof.
  assert (S : forall c l, tsink ccc_tree c l = sink c l).
  { intros c l. induction l as [|d r IH]; [reflexivity|]. cbn [tsink sink]. rewrite !tccc_ok, IH. reflexivity. }
  induction l as [|c l IH]; [reflexivity|]. cbn [torder order]. now rewrite IH, S.
Qed.
Global Opaque ccc_tree decomp_tree.
