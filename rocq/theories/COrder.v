(** The order in which the operands of an expression are evaluated makes no difference
    where neither changes what the other uses (C11 6.5/2). *)
From Coq Require Import String.
From Verif Require Import Base CLang CLogic SpecCPuny.
Local Open Scope list_scope.
Local Open Scope Z_scope.

Section Order.
  Variable rty : string -> cty.
  Variable call : nat -> string -> list (cty * Z) -> list carr -> res Z.
  Notation eval := (eval rty call).
  Fixpoint evals_list (n : nat) (l : list expr) (st : cst) : res (list (cty * Z) * cst) :=
    match l with
    | [] => Val ([], st)
    | a :: l => rbind (eval n a st) (fun '(v, st) => rbind (evals_list n l st) (fun '(vs, st) => Val (v :: vs, st)))
    end.
  Lemma eval_call : forall n f a l st, eval n (ECall f a l) st = rbind (evals_list n l st) (fun '(vs, st) => match pick a (arrs st) with Some m => rbind (call n f vs m) (fun z => Val ((rty f, z), st)) | None => UB end).
  Proof. intros n f b l st. cbn [CLang.eval]. f_equal. revert st. induction l as [|a l IH]; intros st; [reflexivity|]. cbn [evals_list]. destruct (eval n a st) as [[v s]| |]; cbn [rbind]; [rewrite IH|..]; reflexivity. Qed.

  (** What an expression changes. *)
  Definition keeps (P : list string) (s t : cst) : Prop := arrs s = arrs t /\ forall x, ~ In x P -> assoc x (vars s) = assoc x (vars t).
  Lemma keeps_refl : forall P s, keeps P s s. Proof. split; auto. Qed.
  Lemma keeps_trans : forall P Q s t u, keeps P s t -> keeps Q t u -> keeps (P ++ Q) s u.
  Proof. intros P Q s t u (A & B) (C & D). split; [congruence|]. intros x N. rewrite in_app_iff in N. rewrite B, D by tauto. reflexivity. Qed.
  Lemma keeps_more : forall P Q s t, (forall x, In x P -> In x Q) -> keeps P s t -> keeps Q s t.
  Proof. intros P Q s t H (A & B). split; [exact A|]. intros x N. apply B. auto. Qed.
  Lemma assoc_update : forall A (f : A -> A) x y l, x <> y -> assoc x (update y f l) = assoc x l.
  Proof.
    intros A f x y l N. induction l as [|[z a] l IH]; [reflexivity|]. cbn. destruct (String.eqb y z) eqn:E; cbn; [|rewrite IH; reflexivity].
    apply String.eqb_eq in E. subst z. apply String.eqb_neq in N. rewrite N. reflexivity.
  Qed.
  Lemma assoc_updated : forall A (f : A -> A) x l, assoc x (update x f l) = match assoc x l with Some a => Some (f a) | None => None end.
  Proof. intros A f x l. induction l as [|[z a] l IH]; [reflexivity|]. cbn. destruct (String.eqb x z) eqn:E; cbn; rewrite E; [reflexivity|exact IH]. Qed.
  Lemma set_var_keeps : forall x v s w t, set_var x v s = Val (w, t) -> keeps [x] s t.
  Proof.
    intros x v s w t E. unfold set_var in E. destruct (assoc x (vars s)) as [[ty o]|] eqn:A; [|discriminate]. injection E as <- <-. split; [reflexivity|].
    intros y N. cbn [vars]. rewrite assoc_update; [reflexivity|]. intros ->. apply N. now left.
  Qed.
  Ltac step H := match type of H with rbind ?r _ = Val _ => let E := fresh "E" in destruct r as [[? ?]| |] eqn:E; cbn [rbind] in H; [|discriminate|discriminate] end.
  Lemma eval_keeps : forall e n st v st', eval n e st = Val (v, st') -> keeps (sets e) st st'.
  Proof.
    intros e. induction e using expr_ind'; intros n st v st' E; try (rewrite eval_call in E); cbn [CLang.eval] in E; cbn [sets].
    - injection E as <- <-. apply keeps_refl.
    - destruct (get_var x st); cbn in E; [injection E as <- <-; apply keeps_refl|discriminate|discriminate].
    - step E. destruct (assoc a (arrs _)) as [[ty l]|]; [|discriminate]. destruct (cell l _); cbn in E; [|discriminate|discriminate]. injection E as <- <-. eauto.
    - step E. step E. destruct (bin _ _ _); cbn in E; [|discriminate|discriminate]. injection E as <- <-. eapply keeps_trans; eauto.
    - step E. destruct (snd p =? 0); [injection E as <- <-; eapply keeps_more; [|eauto]; intros; apply in_or_app; auto|]. step E. injection E as <- <-. eapply keeps_trans; eauto.
    - step E. destruct (snd p =? 0); [|injection E as <- <-; eapply keeps_more; [|eauto]; intros; apply in_or_app; auto]. step E. injection E as <- <-. eapply keeps_trans; eauto.
    - step E. injection E as <- <-. eauto.
    - step E. step E. injection E as <- <-. eapply keeps_trans; [eauto|]. destruct (snd p =? 0); (eapply keeps_more; [|eauto]); intros; apply in_or_app; auto.
    - step E. injection E as <- <-. eauto.
    - destruct (get_var x st); cbn [rbind] in E; [|discriminate|discriminate]. destruct (bin _ _ _); cbn [rbind] in E; [|discriminate|discriminate]. eapply set_var_keeps; eauto.
    - destruct (get_var x st); cbn [rbind] in E; [|discriminate|discriminate]. destruct (bin _ _ _); cbn [rbind] in E; [|discriminate|discriminate]. step E. injection E as <- <-. eapply set_var_keeps; eauto.
    - step E. eapply keeps_more; [|eapply keeps_trans; [eapply IHe; eauto|eapply set_var_keeps; eauto] ]. intros y I. apply in_app_iff in I. cbn in *. tauto.
    - step E. destruct (get_var x _); cbn [rbind] in E; [|discriminate|discriminate]. destruct (bin _ _ _); cbn [rbind] in E; [|discriminate|discriminate].
      eapply keeps_more; [|eapply keeps_trans; [eapply IHe; eauto|eapply set_var_keeps; eauto] ]. intros y I. apply in_app_iff in I. cbn in *. tauto.
    - step E. destruct (pick _ _); [|discriminate]. destruct (call n f l0 _); cbn [rbind] in E; [|discriminate|discriminate]. injection E as <- <-. rename E0 into E. clear - H E. revert l0 c st E. induction H as [|b l Ha Hl IH]; intros vs st' st E; cbn [evals_list flat_map] in *.
      + injection E as <- <-. apply keeps_refl.
      + step E. step E. injection E as <- <-. eapply keeps_trans; eauto.
  Qed.

  (** What an expression depends on. *)
  Definition agree (U : string -> Prop) (s t : cst) : Prop := arrs s = arrs t /\ forall x, U x -> assoc x (vars s) = assoc x (vars t).
  Definition same {A} (U : string -> Prop) (r r' : res (A * cst)) : Prop :=
    match r, r' with Val (v, s), Val (v', s') => v = v' /\ agree U s s' | UB, UB => True | Fuel, Fuel => True | _, _ => False end.
  Lemma same_bind : forall A B U (r r' : res (A * cst)) (f f' : A * cst -> res (B * cst)), same U r r' -> (forall v s s', agree U s s' -> same U (f (v, s)) (f' (v, s'))) -> same U (rbind r f) (rbind r' f').
  Proof. intros A B U r r' f f' S H. destruct r as [[v s]| |], r' as [[v' s']| |]; cbn in *; try contradiction; auto. destruct S as (-> & S). auto. Qed.
  Lemma same_pure : forall A B U (r : res A) (f f' : A -> res (B * cst)), (forall a, same U (f a) (f' a)) -> same U (rbind r f) (rbind r f').
  Proof. intros A B U [a| |] f f' H; cbn; auto. Qed.
  Lemma get_same : forall U x s s', agree U s s' -> U x -> get_var x s = get_var x s'.
  Proof. intros U x s s' (_ & A) H. unfold get_var. rewrite (A x H). reflexivity. Qed.
  Lemma set_same : forall U x v s s', agree U s s' -> U x -> same U (set_var x v s) (set_var x v s').
  Proof.
    intros U x v s s' (A0 & A) H. unfold set_var. rewrite <- (A x H). destruct (assoc x (vars s)) as [[ty o]|] eqn:E; [|exact I]. split; [reflexivity|]. split; [exact A0|]. cbn [vars].
    intros y Hy. destruct (String.string_dec y x) as [->|N].
    - rewrite !assoc_updated. rewrite <- (A x H). reflexivity.
    - rewrite !assoc_update by exact N. apply A. exact Hy.
  Qed.
  Lemma ety_same : forall e U s s', agree U s s' -> (forall x, uses x e = true -> U x) -> ety rty s e = ety rty s' e.
  Proof.
    intros e. induction e; intros U s s' A H; cbn [ety]; try reflexivity; try (rewrite (proj2 A) by (apply H; cbn; now rewrite String.eqb_refl); reflexivity).
    - rewrite (proj1 A). reflexivity.
    - destruct o; try reflexivity; try (erewrite IHe1, IHe2; [reflexivity|..]; eauto; intros; apply H; cbn; rewrite H0; auto using orb_true_r); erewrite IHe1; eauto; intros; apply H; cbn; now rewrite H0.
    - erewrite IHe2, IHe3; [reflexivity|..]; eauto; intros; apply H; cbn; rewrite H0; rewrite ?orb_true_r; reflexivity.
  Qed.
  Lemma eval_same : forall (U : string -> Prop) e n s s', (forall x, uses x e = true -> U x) -> agree U s s' -> same U (eval n e s) (eval n e s').
  Proof.
    intros U e. induction e using expr_ind'; intros n s s' HU A; rewrite ?eval_call; cbn [CLang.eval].
    - split; auto.
    - rewrite (get_same U x s s' A) by (apply HU; cbn; now rewrite String.eqb_refl). apply same_pure. intros v. split; auto.
    - apply same_bind; [apply IHe; auto|]. intros v t t' B. rewrite (proj1 B). destruct (assoc a (arrs t')) as [[ty l]|]; [|exact I]. apply same_pure. intros z. split; auto.
    - apply same_bind; [apply IHe1; auto; let X := fresh in intros ? X; apply HU; cbn; now rewrite X|]. intros v t t' B. apply same_bind; [apply IHe2; auto; let X := fresh in intros ? X; apply HU; cbn; rewrite X; apply orb_true_r|].
      intros w u u' C. apply same_pure. intros z. split; auto.
    - apply same_bind; [apply IHe1; auto; let X := fresh in intros ? X; apply HU; cbn; now rewrite X|]. intros v t t' B. destruct (snd v =? 0); [split; auto|]. apply same_bind; [apply IHe2; auto; let X := fresh in intros ? X; apply HU; cbn; rewrite X; apply orb_true_r|].
      intros w u u' C. split; auto.
    - apply same_bind; [apply IHe1; auto; let X := fresh in intros ? X; apply HU; cbn; now rewrite X|]. intros v t t' B. destruct (snd v =? 0); [|split; auto]. apply same_bind; [apply IHe2; auto; let X := fresh in intros ? X; apply HU; cbn; rewrite X; apply orb_true_r|].
      intros w u u' C. split; auto.
    - apply same_bind; [apply IHe; auto|]. intros v t t' B. split; auto.
    - apply same_bind; [apply IHe1; auto; let X := fresh in intros ? X; apply HU; cbn; now rewrite X|]. intros v t t' B. apply same_bind.
      + destruct (snd v =? 0); [apply IHe3|apply IHe2]; auto; let X := fresh in intros ? X; apply HU; cbn; rewrite X; rewrite ?orb_true_r; reflexivity.
      + intros w u u' C. rewrite (ety_same e2 U s s' A), (ety_same e3 U s s' A) by (let X := fresh in intros ? X; apply HU; cbn; rewrite X; rewrite ?orb_true_r; reflexivity). split; auto.
    - apply same_bind; [apply IHe; auto|]. intros v r r' B. split; auto.
    - assert (Ux : U x) by (apply HU; cbn; now rewrite String.eqb_refl). rewrite (get_same U x s s' A Ux). apply same_pure. intros v. apply same_pure. intros w. apply set_same; auto.
    - assert (Ux : U x) by (apply HU; cbn; now rewrite String.eqb_refl). rewrite (get_same U x s s' A Ux). apply same_pure. intros v. apply same_pure. intros w. apply same_bind; [apply set_same; auto|]. intros y t t' B. split; auto.
    - assert (Ux : U x) by (apply HU; cbn; now rewrite String.eqb_refl). apply same_bind; [apply IHe; auto; let X := fresh in intros ? X; apply HU; cbn; rewrite X; apply orb_true_r|]. intros v t t' B. apply set_same; auto.
    - assert (Ux : U x) by (apply HU; cbn; now rewrite String.eqb_refl). apply same_bind; [apply IHe; auto; let X := fresh in intros ? X; apply HU; cbn; rewrite X; apply orb_true_r|]. intros v t t' B. rewrite (get_same U x t t' B Ux).
      apply same_pure. intros w. apply same_pure. intros y. apply set_same; auto.
    - apply same_bind.
      + revert s s' A. cbn in HU. induction H as [|b l Ha Hl IH]; intros s s' A; cbn [evals_list]; [split; auto|].
        apply same_bind; [apply Ha; auto; let X := fresh in intros ? X; apply HU; cbn; now rewrite X|]. intros v t t' B. apply same_bind; [apply IH; auto; let X := fresh in intros ? X; apply HU; cbn; rewrite X; apply orb_true_r|]. intros w u u' C. split; auto.
      + intros v t t' B. rewrite (proj1 B). destruct (pick _ _); [|exact I]. apply same_pure. intros z. split; auto.
  Qed.
  Lemma sets_uses : forall e x, In x (sets e) -> uses x e = true.
  Proof.
    intros e. induction e using expr_ind'; intros y I; cbn [sets uses] in *; rewrite ?in_app_iff in I; cbn in I; try contradiction; auto;
      try (destruct I as [<-|[]]; apply String.eqb_refl); try (destruct I as [<-|I]; [rewrite String.eqb_refl; reflexivity|rewrite IHe by exact I; apply orb_true_r]).
    - destruct I as [I|I]; [rewrite IHe1 by exact I; reflexivity|rewrite IHe2 by exact I; apply orb_true_r].
    - destruct I as [I|I]; [rewrite IHe1 by exact I; reflexivity|rewrite IHe2 by exact I; apply orb_true_r].
    - destruct I as [I|I]; [rewrite IHe1 by exact I; reflexivity|rewrite IHe2 by exact I; apply orb_true_r].
    - destruct I as [I|[I|I] ]; [rewrite IHe1 by exact I; reflexivity|rewrite IHe2 by exact I; rewrite orb_true_r; reflexivity|rewrite IHe3 by exact I; apply orb_true_r].
    - apply in_flat_map in I. destruct I as (b & IA & IY). apply existsb_exists. exists b. split; [exact IA|]. apply (proj1 (Forall_forall _ _) H b IA). exact IY.
  Qed.

  Theorem swap : forall a b n st v st1 w st2, apart a b = true -> eval n a st = Val (v, st1) -> eval n b st1 = Val (w, st2) ->
    exists st1' st2', eval n b st = Val (w, st1') /\ eval n a st1' = Val (v, st2') /\ alike st2 st2'.
  Proof.
    intros a b n st v st1 w st2 P EA EB. unfold apart in P. apply andb_true_iff in P. destruct P as (PA & PB). rewrite forallb_forall in PA, PB.
    assert (NA : forall x, uses x b = true -> ~ In x (sets a)) by (intros x U I; specialize (PA x I); rewrite U in PA; discriminate).
    assert (NB : forall x, uses x a = true -> ~ In x (sets b)) by (intros x U I; specialize (PB x I); rewrite U in PB; discriminate).
    pose proof (eval_keeps a n st v st1 EA) as (K1 & K1'). pose proof (eval_keeps b n st1 w st2 EB) as (K2 & K2').
    pose proof (eval_same (fun x => uses x b = true) b n st1 st ltac:(auto)) as S1. rewrite EB in S1. destruct (eval n b st) as [[w' st1']| |] eqn:EB'; cbn in S1; try (elim S1; split; [congruence|intros x U; symmetry; apply K1', NA, U]).
    destruct S1 as (<- & S1 & S1'); [split; [congruence|intros x U; symmetry; apply K1', NA, U]|]. pose proof (eval_keeps b n st w st1' EB') as (K3 & K3').
    pose proof (eval_same (fun x => uses x a = true) a n st st1' ltac:(auto)) as S2. rewrite EA in S2. destruct (eval n a st1') as [[v' st2']| |] eqn:EA'; cbn in S2; try (elim S2; split; [congruence|intros x U; apply K3', NB, U]).
    destruct S2 as (<- & S2 & S2'); [split; [congruence|intros x U; apply K3', NB, U]|]. pose proof (eval_keeps a n st1' v st2' EA') as (K4 & K4').
    exists st1', st2'. split; [reflexivity|]. split; [exact EA'|]. split; [congruence|]. intros x.
    destruct (in_dec String.string_dec x (sets b)) as [IB|IB].
    - pose proof (sets_uses b x IB) as U. rewrite (S1' x U). apply K4', NA, U.
    - rewrite <- K2' by exact IB. destruct (in_dec String.string_dec x (sets a)) as [IA|IA].
      + apply S2'. apply sets_uses. exact IA.
      + rewrite <- K1' by exact IA. rewrite <- K4' by exact IA. rewrite <- K3' by exact IB. reflexivity.
  Qed.
End Order.
