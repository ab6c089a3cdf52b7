(** Rules for running programs of CLang.v. *)
From Coq Require Import String.
From Verif Require Import Base CLang.
Local Open Scope list_scope.
Local Open Scope Z_scope.

Definition expr_ind' (P : expr -> Prop) (H1 : forall t z, P (EInt t z)) (H2 : forall x, P (EVar x)) (H3 : forall a i, P i -> P (EIdx a i))
  (H4 : forall o a b, P a -> P b -> P (EBin o a b)) (H5 : forall a b, P a -> P b -> P (EAnd a b)) (H6 : forall a b, P a -> P b -> P (EOr a b))
  (H7 : forall a, P a -> P (ENot a)) (H8 : forall c a b, P c -> P a -> P b -> P (ECond c a b)) (H9 : forall t a, P a -> P (ECast t a))
  (H10 : forall x, P (EPre x)) (H11 : forall x, P (EPost x)) (H12 : forall x a, P a -> P (EAsg x a)) (H13 : forall o x a, P a -> P (EOp o x a))
  (H14 : forall f a l, Forall P l -> P (ECall f a l)) : forall e, P e :=
  fix F e := match e with
  | EInt t z => H1 t z | EVar x => H2 x | EIdx a i => H3 a i (F i) | EBin o a b => H4 o a b (F a) (F b) | EAnd a b => H5 a b (F a) (F b) | EOr a b => H6 a b (F a) (F b)
  | ENot a => H7 a (F a) | ECond c a b => H8 c a b (F c) (F a) (F b) | ECast t a => H9 t a (F a) | EPre x => H10 x | EPost x => H11 x
  | EAsg x a => H12 x a (F a) | EOp o x a => H13 o x a (F a)
  | ECall f a l => H14 f a l ((fix G l := match l return Forall P l with [] => Forall_nil P | a :: l => Forall_cons a (F a) (G l) end) l)
  end.

Section Mono.
  Variable rty : string -> cty.
  Variable call : nat -> string -> list (cty * Z) -> list carr -> res Z.
  Hypothesis call_mono : forall n m f vs a, (n <= m)%nat -> call n f vs a <> Fuel -> call m f vs a = call n f vs a.

  Lemma rbind_mono : forall A B (r r' : res A) (f g : A -> res B), (r <> Fuel -> r' = r) -> (forall a, f a <> Fuel -> g a = f a) -> rbind r f <> Fuel -> rbind r' g = rbind r f.
  Proof.
    intros A B r r' f g H K N. destruct r as [a| |]; [|rewrite H by discriminate; reflexivity|elim N; reflexivity]. rewrite H by discriminate. cbn in *. now apply K.
  Qed.
  Lemma eval_mono : forall e n m st, (n <= m)%nat -> eval rty call n e st <> Fuel -> eval rty call m e st = eval rty call n e st.
  Proof.
    intros e. induction e using expr_ind'; intros n m st L N; cbn [eval] in *; try reflexivity;
      try (apply rbind_mono; [intros NF; auto|intros [v s] N'|exact N]); auto.
    - apply rbind_mono; auto.
    - destruct (snd v =? 0); [reflexivity|]. apply rbind_mono; auto.
    - destruct (snd v =? 0); [|reflexivity]. apply rbind_mono; auto.
    - destruct (snd v =? 0); apply rbind_mono; auto.
    - clear N. revert st NF. induction H as [|b l Hb Hl IH]; intros st NF; [reflexivity|].
      apply rbind_mono; [intros; auto|intros [v s] N''|exact NF]. apply rbind_mono; auto.
    - destruct (pick a (arrs s)); [|reflexivity]. apply rbind_mono; auto.
  Qed.
  Lemma sum_mono : forall l n m st, (n <= m)%nat -> sum rty call n l st <> Fuel -> sum rty call m l st = sum rty call n l st.
  Proof.
    induction l as [|a l IH]; intros n m st L N; [reflexivity|]. cbn [sum] in *. apply rbind_mono; [intros; now apply eval_mono|intros [v s] N'|exact N].
    apply rbind_mono; auto.
  Qed.
  Lemma obind_mono : forall A (r r' : res A) (f g : A -> outcome), (r <> Fuel -> r' = r) -> (forall a, f a <> Out -> g a = f a) -> obind r f <> Out -> obind r' g = obind r f.
  Proof.
    intros A r r' f g H K N. destruct r as [a| |]; [|rewrite H by discriminate; reflexivity|elim N; reflexivity]. rewrite H by discriminate. cbn in *. now apply K.
  Qed.
  Lemma after_mono : forall o o' f g, (o <> Out -> o' = o) -> (forall st, f st <> Out -> g st = f st) -> after o f <> Out -> after o' g = after o f.
  Proof.
    intros o o' f g H K N. destruct o as [st| st | st | v st | |]; try (rewrite H by discriminate; cbn in *; auto); elim N; reflexivity.
  Qed.
  Lemma loop_mono : forall c c' s s' b b', (forall st, c st <> Fuel -> c' st = c st) -> (forall st, s st <> Out -> s' st = s st) -> (forall st, b st <> Out -> b' st = b st) ->
    forall k k' st, (k <= k')%nat -> loop c s b k st <> Out -> loop c' s' b' k' st = loop c s b k st.
  Proof.
    intros c c' s s' b b' C S B k. induction k as [|k IH]; intros k' st L N; [elim N; reflexivity|]. destruct k' as [|k']; [lia|]. cbn [loop] in *.
    apply obind_mono; [auto|intros [v s1] N'|exact N]. destruct (snd v =? 0); [reflexivity|]. pose proof (B s1) as B1.
    destruct (b s1) as [s2|s2|s2|w s2| |] eqn:E; try (rewrite B1 by discriminate; try reflexivity); [| |elim N'; reflexivity];
    (apply after_mono; [auto| |exact N']; intros s3 N3; apply IH; [lia|exact N3]).
  Qed.
  Lemma exec_mono : forall s n m st, (n <= m)%nat -> exec rty call n s st <> Out -> exec rty call m s st = exec rty call n s st.
  Proof.
    induction s; intros n0 m st L N; cbn [exec] in *; try reflexivity.
    - apply obind_mono; [intros; now apply eval_mono|intros [v s1] N'|exact N]. reflexivity.
    - apply obind_mono; [intros; now apply eval_mono|intros [v s1] N'|exact N]. apply obind_mono; [intros; now apply eval_mono|intros [w s2] N2|exact N']. reflexivity.
    - apply obind_mono; [intros; now apply sum_mono|intros [v s1] N'|exact N]. apply obind_mono; [intros; now apply sum_mono|intros [w s2] N2|exact N'].
      apply obind_mono; [intros; now apply eval_mono|intros [x s3] N3|exact N2]. reflexivity.
    - apply after_mono; auto.
    - apply obind_mono; [intros; now apply eval_mono|intros [v s3] N'|exact N]. destruct (snd v =? 0); auto.
    - apply loop_mono; auto. intros; now apply eval_mono.
    - apply obind_mono; [intros; now apply eval_mono|intros [v s1] N'|exact N]. reflexivity.
  Qed.

  (** [s] ends with [o]; [e] has the value [v]. *)
  Definition runs (s : stmt) (st : cst) (o : outcome) : Prop := exists n, exec rty call n s st = o /\ o <> Out.
  Definition evals (e : expr) (st : cst) (v : cty * Z) (st' : cst) : Prop := exists n, eval rty call n e st = Val (v, st').

  Lemma runs_at : forall s st o n, exec rty call n s st = o -> o <> Out -> forall m, (n <= m)%nat -> exec rty call m s st = o.
  Proof. intros s st o n E N m L. rewrite <- E. apply exec_mono; [exact L|congruence]. Qed.
  Lemma evals_at : forall e st v st' n, eval rty call n e st = Val (v, st') -> forall m, (n <= m)%nat -> eval rty call m e st = Val (v, st').
  Proof. intros e st v st' n E m L. rewrite <- E. apply eval_mono; [exact L|congruence]. Qed.

  Lemma runs_exp : forall e st v st', evals e st v st' -> runs (SExp e) st (Norm st').
  Proof. intros e st v st' (n & E). exists n. cbn [exec]. rewrite E. split; [reflexivity|discriminate]. Qed.
  Lemma runs_ret : forall e st v st', evals e st v st' -> runs (SReturn e) st (Ret v st').
  Proof. intros e st v st' (n & E). exists n. cbn [exec]. rewrite E. split; [reflexivity|discriminate]. Qed.
  Lemma runs_brk : forall st, runs SBreak st (Brk st). Proof. intros st. exists O. split; [reflexivity|discriminate]. Qed.
  Lemma runs_skip : forall st, runs SSkip st (Norm st). Proof. intros st. exists O. split; [reflexivity|discriminate]. Qed.
  Lemma runs_seq : forall a b st st' o, runs a st (Norm st') -> runs b st' o -> runs (SSeq a b) st o.
  Proof.
    intros a b st st' o (n & E & _) (m & F & N). exists (max n m). cbn [exec]. rewrite (runs_at _ _ _ _ E ltac:(discriminate)) by lia. cbn [after].
    split; [apply (runs_at _ _ _ _ F N); lia | exact N].
  Qed.
  Lemma runs_cnt : forall st, runs SContinue st (Cnt st). Proof. intros st. exists O. split; [reflexivity|discriminate]. Qed.
  Definition stops (o : outcome) : Prop := match o with Norm _ | Out => False | _ => True end.
  (** The rest of a loop is left. *)
  Definition leaves (o : outcome) : Prop := match o with Norm _ | Cnt _ | Out => False | _ => True end.
  Lemma runs_seq_stop : forall a b st o, runs a st o -> stops o -> runs (SSeq a b) st o.
  Proof. intros a b st o (n & E & N) S. exists n. cbn [exec]. rewrite E. split; [destruct o; cbn in *; tauto | exact N]. Qed.
  Lemma runs_if : forall c a b st v st' o, evals c st v st' -> runs (if snd v =? 0 then b else a) st' o -> runs (SIf c a b) st o.
  Proof.
    intros c a b st v st' o (n & E) (m & F & N). exists (max n m). cbn [exec]. rewrite (evals_at _ _ _ _ _ E) by lia. cbn [obind].
    pose proof (runs_at _ _ _ _ F N (max n m) ltac:(lia)) as G. split; [destruct (snd v =? 0); exact G | exact N].
  Qed.
  Lemma runs_loop_end : forall c s b st v st', evals c st v st' -> snd v = 0 -> runs (SLoop c s b) st (Norm st').
  Proof.
    intros c s b st v st' (n & E) Hz. exists (S n). cbn [exec loop]. rewrite (evals_at _ _ _ _ _ E) by lia. cbn [obind]. rewrite Hz. split; [reflexivity|discriminate].
  Qed.
  Lemma runs_loop_stop : forall c s b st v st' o, evals c st v st' -> snd v <> 0 -> runs b st' o -> leaves o -> runs (SLoop c s b) st (match o with Brk st => Norm st | o => o end).
  Proof.
    intros c s b st v st' o (n & E) Hz (m & F & N) S. exists (Datatypes.S (max n m)). cbn [exec loop]. rewrite (evals_at _ _ _ _ _ E) by lia. cbn [obind].
    destruct (snd v =? 0) eqn:Q; [lia|]. rewrite (runs_at _ _ _ _ F N) by lia. destruct o; cbn in *; try tauto; split; congruence.
  Qed.
  Lemma runs_loop_next : forall c s b st v st1 st2 st3 o, evals c st v st1 -> snd v <> 0 -> runs b st1 (Norm st2) -> runs s st2 (Norm st3) -> runs (SLoop c s b) st3 o -> runs (SLoop c s b) st o.
  Proof.
    intros c s b st v st1 st2 st3 o (n & E) Hz (m & F & _) (k & G & _) (l & H & N).
    exists (S (max (max n m) (max k l))). split; [|exact N]. set (q := max (max n m) (max k l)). cbn [exec loop].
    rewrite (evals_at _ _ _ _ _ E) by lia. cbn [obind]. destruct (snd v =? 0) eqn:Q; [lia|].
    rewrite (runs_at _ _ _ _ F ltac:(discriminate)) by lia. rewrite (runs_at _ _ _ _ G ltac:(discriminate)) by lia. cbn [after].
    cbn [exec] in H. rewrite <- H. apply loop_mono; [| | |lia|congruence].
    - intros. apply eval_mono; [lia|assumption].
    - intros. apply exec_mono; [lia|assumption].
    - intros. apply exec_mono; [lia|assumption].
  Qed.
  Lemma runs_loop_cont : forall c s b st v st1 st2 st3 o, evals c st v st1 -> snd v <> 0 -> runs b st1 (Cnt st2) -> runs s st2 (Norm st3) -> runs (SLoop c s b) st3 o -> runs (SLoop c s b) st o.
  Proof.
    intros c s b st v st1 st2 st3 o (n & E) Hz (m & F & _) (k & G & _) (l & H & N).
    exists (S (max (max n m) (max k l))). split; [|exact N]. set (q := max (max n m) (max k l)). cbn [exec loop].
    rewrite (evals_at _ _ _ _ _ E) by lia. cbn [obind]. destruct (snd v =? 0) eqn:Q; [lia|].
    rewrite (runs_at _ _ _ _ F ltac:(discriminate)) by lia. rewrite (runs_at _ _ _ _ G ltac:(discriminate)) by lia. cbn [after].
    cbn [exec] in H. rewrite <- H. apply loop_mono; [| | |lia|congruence].
    - intros. apply eval_mono; [lia|assumption].
    - intros. apply exec_mono; [lia|assumption].
    - intros. apply exec_mono; [lia|assumption].
  Qed.
End Mono.

Lemma calls_mono : forall P d n m f vs a, (n <= m)%nat -> calls P d n f vs a <> Fuel -> calls P d m f vs a = calls P d n f vs a.
Proof.
  intros P d. induction d as [|d IH]; intros n m f vs a L N; cbn [calls] in *; (destruct (p_lib P f) as [[t g]|]; [reflexivity|]); [reflexivity|].
  destruct (assoc f (p_funs P)) as [g|]; [|reflexivity]. destruct ((length vs =? length (f_params g))%nat && (length a =? length (f_arrs g))%nat); [|reflexivity].
  destruct (exec (types P) (calls P d) n (f_body g) (mkst (declare g vs) (combine (f_arrs g) a))) as [s|s|s|v s| |] eqn:E;
    [| | | | |elim N; reflexivity]; rewrite (exec_mono (types P) (calls P d) IH _ n m _ L) by (rewrite E; discriminate); rewrite E; reflexivity.
Qed.

(** A call of a function of the program. *)
Lemma calls_run : forall P d f g vs a v st, p_lib P f = None -> assoc f (p_funs P) = Some g -> length vs = length (f_params g) -> length a = length (f_arrs g) ->
  runs (types P) (calls P d) (f_body g) (mkst (declare g vs) (combine (f_arrs g) a)) (Ret v st) -> exists n, forall m, (n <= m)%nat -> calls P (S d) m f vs a = Val (cast (fst v) (f_ret g) (snd v)).
Proof.
  intros P d f g vs a v st L A LV LA (n & E & N). exists n. intros m H. cbn [calls]. rewrite L, A, (proj2 (PeanoNat.Nat.eqb_eq _ _) LV), (proj2 (PeanoNat.Nat.eqb_eq _ _) LA). cbn [andb].
  rewrite (runs_at _ _ (calls_mono P d) _ _ _ _ E N m H). reflexivity.
Qed.
