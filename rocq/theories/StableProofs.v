(** The mapping of the shipped table is stable: what a code point maps to is
    left alone by a second application. *)
From Verif Require Import Base DataTypes DataTr46 SpecTables SpecLookup SpecUtf8 SpecLabel Gentr46 Tr46Facts MapProofs BaseTop.

(** A search tree over the rows, to make the check below cheap. *)
Inductive tree := Leaf | Node (l : tree) (r : row) (rt : tree).
Fixpoint build (n : nat) (rs : list row) : tree * list row :=
  match n with
  | O => (Leaf, rs)
  | S n' =>
      let (l, rs1) := build n' rs in
      match rs1 with
      | [] => (l, [])
      | r :: rs2 => let (rt, rs3) := build n' rs2 in (Node l r rt, rs3)
      end
  end.
Fixpoint tfind (t : tree) (c : Z) : option row :=
  match t with
  | Leaf => None
  | Node l r rt => if c <? r_lo r then tfind l c else if c <=? r_hi r then Some r else tfind rt c
  end.
Fixpoint tin (r : row) (t : tree) : Prop :=
  match t with Leaf => False | Node l x rt => tin r l \/ x = r \/ tin r rt end.
Lemma build_in : forall n rs t rest, build n rs = (t, rest) -> (forall r, tin r t -> In r rs) /\ (forall r, In r rest -> In r rs).
Proof.
  induction n as [|n IH]; intros rs t rest H; cbn [build] in H.
  - injection H as <- <-. split; [intros r []|auto].
  - destruct (build n rs) as (l & rs1) eqn:E1. destruct (IH _ _ _ E1) as (A1 & A2). destruct rs1 as [|x rs2].
    + injection H as <- <-. split; [auto|intros r []].
    + destruct (build n rs2) as (rt & rs3) eqn:E2. destruct (IH _ _ _ E2) as (B1 & B2). injection H as <- <-. split.
      * intros r [I|[->|I]]; [now apply A1|apply A2; now left|]. apply A2. right. now apply B1.
      * intros r I. apply A2. right. now apply B2.
Qed.
Lemma tfind_in : forall t c r, tfind t c = Some r -> tin r t /\ r_lo r <= c <= r_hi r.
Proof.
  induction t as [|l IHl x rt IHr]; intros c r H; cbn [tfind] in H; [discriminate|]. cbn [tin].
  destruct (c <? r_lo x) eqn:E1; [apply IHl in H; tauto|]. apply Z.ltb_ge in E1. destruct (c <=? r_hi x) eqn:E2; [|apply IHr in H; tauto].
  apply Z.leb_le in E2. injection H as ->. split; [tauto|lia].
Qed.
Definition idna_tree : tree := fst (build 14 idna_rows).
Lemma tree_row : forall c r, tfind idna_tree c = Some r -> idna_row c = Some r.
Proof.
  intros c r H. apply tfind_in in H. destruct H as (I & R). apply idna_row_unique; [|exact R].
  unfold idna_tree in I. destruct (build 14 idna_rows) as (t & rest) eqn:E. cbn [fst] in I. destruct (build_in _ _ _ _ E) as (A & _). now apply A.
Qed.
Definition status_in (t : tree) (c : Z) (std3 : bool) : bool :=
  match tfind t c with
  | Some r => match r_status r with Valid => true | Std3Valid => std3 | _ => false end
  | None => false
  end.
Definition mapping_stable (t : tree) (r : row) : bool :=
  match r_status r with
  | Mapped | Deviation => forallb (fun c => status_in t c false) (r_map r)
  | Std3Mapped => forallb (fun c => status_in t c true) (r_map r)
  | _ => true
  end.
Lemma rows_stable : (let t := idna_tree in forallb (mapping_stable t) idna_rows) = true.
Proof. vm_cast_no_check (eq_refl true). Qed.
Transparent status_of mapping_of.
Lemma status_in_ok : forall c std3, status_in idna_tree c std3 = true -> status_of c = Valid \/ (std3 = true /\ status_of c = Std3Valid).
Proof.
  intros c std3 H. unfold status_in in H. destruct (tfind idna_tree c) as [r|] eqn:E; [|discriminate]. apply tree_row in E.
  assert (status_of c = r_status r) as -> by (unfold status_of; rewrite E; reflexivity).
  destruct (r_status r); try discriminate; auto.
Qed.
Global Opaque idna_tree.
Lemma mapping_status : forall c x, In x (mapping_of c) ->
  match status_of c with
  | Mapped | Deviation => status_of x = Valid
  | Std3Mapped => status_of x = Valid \/ status_of x = Std3Valid
  | _ => True
  end.
Proof.
  intros c x H. pose proof rows_stable as A. cbv zeta in A. rewrite forallb_forall in A.
  unfold mapping_of in H. unfold status_of at 1. destruct (idna_row c) as [r|] eqn:E; [|destruct H].
  apply find_in in E. destruct E as (I & _). specialize (A r I). unfold mapping_stable in A.
  destruct (r_status r); auto; rewrite forallb_forall in A; specialize (A x H); apply status_in_ok in A; intuition discriminate.
Qed.
Global Opaque status_of mapping_of.
Lemma map1_stable : forall tr std3 c x, In x (map1 tr std3 c) -> map1 tr std3 x = [x].
Proof.
  intros tr std3 c x H. unfold map1 in H.
  assert (V : status_of x = Valid -> map1 tr std3 x = [x]) by (intros E; unfold map1; now rewrite E).
  assert (D : In x [c] -> (status_of c = Valid \/ status_of c = Disallowed \/ (status_of c = Deviation /\ tr = false) \/ (status_of c = Std3Valid /\ std3 = false)) -> map1 tr std3 x = [x]).
  { intros [<-|[]] K. unfold map1. destruct K as [-> | [-> | [(-> & ->) | (-> & ->)]]]; reflexivity. }
  pose proof (mapping_status c x) as M.
  destruct (status_of c); try (apply D; [exact H|tauto]).
  - apply V. now apply M.
  - destruct H.
  - destruct tr; [apply V; now apply M|apply D; [exact H|tauto]].
  - destruct std3; [destruct H|]. destruct (M H) as [E|E]; [now apply V|]. unfold map1. rewrite E. reflexivity.
  - destruct std3; [destruct H|apply D; [exact H|tauto]].
Qed.
Lemma uts46_map_stable : forall tr std3 l, uts46_map tr std3 (uts46_map tr std3 l) = uts46_map tr std3 l.
Proof.
  intros tr std3 l. assert (G : forall m, (forall x, In x m -> map1 tr std3 x = [x]) -> uts46_map tr std3 m = m).
  { induction m as [|x m IH]; intros H; [reflexivity|]. unfold uts46_map in *. cbn [flat_map]. rewrite (H x) by now left.
    rewrite IH; [reflexivity|]. intros y Hy. apply H. now right. }
  apply G. intros x Hx. unfold uts46_map in Hx. apply in_flat_map in Hx. destruct Hx as (c & _ & Hc). eapply map1_stable; eauto.
Qed.
Lemma map1_disallowed : forall tr std3 c x, In x (map1 tr std3 c) -> status_of c <> Disallowed -> status_of x <> Disallowed.
Proof.
  intros tr std3 c x H N. unfold map1 in H. pose proof (mapping_status c x) as M.
  assert (D : In x [c] -> status_of x <> Disallowed) by (intros [<-|[]]; auto).
  destruct (status_of c); try (now apply D); try congruence.
  - rewrite (M H). discriminate.
  - destruct tr; [rewrite (M H); discriminate|now apply D].
  - destruct std3; [destruct H|]. destruct (M H) as [-> | ->]; discriminate.
  - destruct std3; [destruct H|now apply D].
Qed.
Lemma uts46_map_disallowed : forall tr std3 l, existsb disallowedb l = false -> existsb disallowedb (uts46_map tr std3 l) = false.
Proof.
  intros tr std3 l H. apply not_true_iff_false. intros E. apply existsb_exists in E. destruct E as (x & Hx & Dx).
  unfold uts46_map in Hx. apply in_flat_map in Hx. destruct Hx as (c & Hc & Hm).
  assert (N : status_of c <> Disallowed).
  { intros X. apply not_true_iff_false in H. apply H. apply existsb_exists. exists c. split; [exact Hc|]. unfold disallowedb. now rewrite X. }
  apply (map1_disallowed tr std3 c x Hm N). unfold disallowedb in Dx. destruct (status_of x); try discriminate. reflexivity.
Qed.
