(** The C text of the label tests: the statements for callers. *)
From Coq Require Import String.
From Verif Require Import Base PunyBase Uenv Bidi Context Idna SpecTables SpecBidi SpecContext SpecLabel SpecNfc BidiProofs ContextProofs LabelProofs NfcProofs CLang CLogic CLeaf CDecode CEncode CLabel CBidi CContext CIdna CQuick SpecCPuny SpecCLabel.
Local Open Scope string_scope.
Local Open Scope list_scope.
Local Open Scope Z_scope.

(** Running a text that writes to no array leaves the arrays alone. *)
Section Arrays.
  Variables (rt : string -> cty) (cl : nat -> string -> list (cty * Z) -> list carr -> res Z).
  Lemma set_arrs : forall x v st w st', set_var x v st = Val (w, st') -> arrs st' = arrs st.
  Proof. intros x v st w st' E. unfold set_var in E. destruct (assoc x (vars st)) as [[t o]|]; [|discriminate E]. injection E as _ <-. reflexivity. Qed.
  Lemma eval_arrs : forall e n st v st', eval rt cl n e st = Val (v, st') -> arrs st' = arrs st.
  Proof.
    intros e n. revert e.
    assert (RB : forall A (r : res A) (B : Type) (f : A -> res B) b, rbind r f = Val b -> exists a, r = Val a /\ f a = Val b) by (intros A [a| |] B f b E; try discriminate E; exists a; auto).
    fix IH 1. intros e st v st' E. destruct e as [t z|x|a i|o a b|a b|a b|a|c a b|t a|x|x|x a|o x a|f a l]; cbn [eval] in E.
    - injection E as _ <-. reflexivity.
    - apply RB in E. destruct E as (w & _ & E). injection E as _ <-. reflexivity.
    - apply RB in E. destruct E as ((w & s1) & E1 & E). apply IH in E1. destruct (assoc a (arrs s1)) as [[t l]|]; [|discriminate E]. apply RB in E. destruct E as (z & _ & E). injection E as _ <-. exact E1.
    - apply RB in E. destruct E as ((w & s1) & E1 & E). apply RB in E. destruct E as ((y & s2) & E2 & E). apply RB in E. destruct E as (z & _ & E). injection E as _ <-. apply IH in E1. apply IH in E2. congruence.
    - apply RB in E. destruct E as ((w & s1) & E1 & E). apply IH in E1. destruct (snd w =? 0); [injection E as _ <-; exact E1|]. apply RB in E. destruct E as ((y & s2) & E2 & E). injection E as _ <-. apply IH in E2. congruence.
    - apply RB in E. destruct E as ((w & s1) & E1 & E). apply IH in E1. destruct (snd w =? 0); [|injection E as _ <-; exact E1]. apply RB in E. destruct E as ((y & s2) & E2 & E). injection E as _ <-. apply IH in E2. congruence.
    - apply RB in E. destruct E as ((w & s1) & E1 & E). injection E as _ <-. apply IH in E1. exact E1.
    - apply RB in E. destruct E as ((w & s1) & E1 & E). apply RB in E. destruct E as ((y & s2) & E2 & E). injection E as _ <-. apply IH in E1. destruct (snd w =? 0); apply IH in E2; congruence.
    - apply RB in E. destruct E as ((w & s1) & E1 & E). injection E as _ <-. apply IH in E1. exact E1.
    - apply RB in E. destruct E as (w & _ & E). apply RB in E. destruct E as (y & _ & E). exact (set_arrs _ _ _ _ _ E).
    - apply RB in E. destruct E as (w & _ & E). apply RB in E. destruct E as (y & _ & E). apply RB in E. destruct E as ((z & s1) & E1 & E). injection E as _ <-. exact (set_arrs _ _ _ _ _ E1).
    - apply RB in E. destruct E as ((w & s1) & E1 & E). apply IH in E1. rewrite <- E1. exact (set_arrs _ _ _ _ _ E).
    - apply RB in E. destruct E as ((w & s1) & E1 & E). apply IH in E1. apply RB in E. destruct E as (y & _ & E). apply RB in E. destruct E as (z & _ & E). rewrite <- E1. exact (set_arrs _ _ _ _ _ E).
    - apply RB in E. destruct E as ((vs & s1) & E1 & E). assert (K : arrs s1 = arrs st).
      { clear E. revert st vs s1 E1. induction l as [|b l IHl]; intros st vs s1 E1; [injection E1 as _ <-; reflexivity|]. apply RB in E1. destruct E1 as ((w & s2) & E2 & E1). apply IH in E2. apply RB in E1. destruct E1 as ((ws & s3) & E3 & E1). injection E1 as _ <-. apply IHl in E3. congruence. }
      destruct (pick a (arrs s1)) as [m|]; [|discriminate E]. apply RB in E. destruct E as (z & _ & E). injection E as _ <-. exact K.
  Qed.
  Definition out_arrs (o : outcome) : option (list (string * carr)) := match o with Norm st | Brk st | Cnt st | Ret _ st => Some (arrs st) | _ => None end.
  Definition keeps (st : cst) (o : outcome) : Prop := match out_arrs o with Some a => a = arrs st | None => True end.
  Lemma after_keeps : forall st o f, keeps st o -> (forall s, arrs s = arrs st -> keeps st (f s)) -> keeps st (after o f).
  Proof. intros st [s|s|s|v s| |] f H K; cbn; auto. Qed.
  Lemma exec_keeps : forall s n st, reads_only s = true -> keeps st (exec rt cl n s st).
  Proof.
    assert (OB : forall n e st f, (forall v s, arrs s = arrs st -> keeps st (f (v, s))) -> keeps st (obind (eval rt cl n e st) f)).
    { intros n e st f H. destruct (eval rt cl n e st) as [[v s]| |] eqn:E; cbn; [|exact I|exact I]. apply H. exact (eval_arrs _ _ _ _ _ E). }
    assert (TR : forall st s o, arrs s = arrs st -> keeps s o -> keeps st o) by (intros st s o E K; unfold keeps in *; destruct (out_arrs o); congruence).
    induction s as [|e|a i e|a dd s m|a IHa b IHb|c a IHa b IHb|c s1 IH1 b IHb| | |e]; intros n st H; cbn [reads_only] in H; try discriminate H; cbn [exec].
    - reflexivity.
    - apply OB. intros v s E. exact E.
    - apply andb_true_iff in H. destruct H as (A & B). apply after_keeps; [apply IHa; exact A|]. intros s E. exact (TR _ _ _ E (IHb n s B)).
    - apply andb_true_iff in H. destruct H as (A & B). apply OB. intros v s E. destruct (snd v =? 0); [exact (TR _ _ _ E (IHb n s B))|exact (TR _ _ _ E (IHa n s A))].
    - apply andb_true_iff in H. destruct H as (A & B). assert (K : forall k st, keeps st (loop (eval rt cl n c) (exec rt cl n s1) (exec rt cl n b) k st)).
      { induction k as [|k IHk]; intros s; [exact I|]. cbn [loop]. apply OB. intros v s2 E. destruct (snd v =? 0); [exact E|]. pose proof (TR _ _ _ E (IHb n s2 B)) as KB.
        destruct (exec rt cl n b s2) as [t|t|t|w t| |]; try exact KB; (apply after_keeps; [exact (TR _ _ _ KB (IH1 n t A))|intros u Eu; exact (TR _ _ _ Eu (IHk u))]). }
      apply K.
    - reflexivity.
    - reflexivity.
    - apply OB. intros v s E. exact E.
  Qed.
End Arrays.

Lemma returns_one : forall A (r : nat -> res A) x y, returns r x -> returns r y -> x = y.
Proof. intros A r x y (n & X) (m & Y). specialize (X (max n m) ltac:(lia)). specialize (Y (max n m) ltac:(lia)). congruence. Qed.
Lemma runs_returns : forall U f l args v st, reads_only (f_body f) = true -> cast (fst v) (f_ret f) (snd v) = snd v ->
  runs (types (label_program U)) (calls (label_program U) 2) (f_body f) (mkst (declare f args) [("label", (U32, map Some l))]) (Ret v st) -> c_returns U f l args (snd v).
Proof.
  intros U f l args v st RO CV (N & E & NO). exists N. intros n H. unfold run. rewrite (runs_at _ _ (lmono U 2) _ _ _ _ E NO n H). rewrite CV.
  pose proof (exec_keeps (types (label_program U)) (calls (label_program U) 2) (f_body f) N (mkst (declare f args) [("label", (U32, map Some l))]) RO) as K. rewrite E in K. cbn in K. rewrite K. reflexivity.
Qed.

Ltac done_with X := match goal with |- c_returns ?U ?f ?l ?a ?z => exact (runs_returns U f l a (I32, z) _ eq_refl eq_refl X) end.
Lemma text_bidi : forall U l, array32 l -> c_returns U c_bidi l [(U64, zlen l)] (code (bidi U l)).
Proof. intros U l (_ & L4). destruct (bidi_body U 1 l L4) as (st & X). done_with X. Qed.
Lemma text_contextj : forall U l pos, array32 l -> 0 <= pos < zlen l -> c_returns U c_contextj_rule l [(U64, zlen l); (U64, pos)] (code (contextj_rule U l pos)).
Proof. intros U l pos (_ & L4) H. destruct (contextj_body U 2 l L4 pos H) as (st & X). done_with X. Qed.
Lemma text_contexto : forall U l pos, array32 l -> 0 <= pos < zlen l -> c_returns U c_contexto_rule l [(U64, zlen l); (U64, pos)] (code (contexto_rule U l pos)).
Proof. intros U l pos (_ & L4) H. destruct (contexto_body U 2 l L4 pos H) as (st & X). done_with X. Qed.
Lemma array_pos : forall l, array32 l -> Forall (fun c => 0 <= c) l. Proof. intros l (H & _). eapply Forall_impl; [|exact H]. cbn. intros; lia. Qed.
Lemma text_label : forall U what l, array32 l -> nfc_fits U l -> 0 <= what < 2147483648 -> c_returns U c_label_test l [(I32, what); (U64, zlen l)] (code (label_test U what l)).
Proof.
  intros U what l A N H. pose proof (label_test_ends U 0 l (proj2 A) (array_pos l A) what (proj1 H) N (ts l what None None None None None None)) as X. cbv beta in X.
  assert (JJ : J l what (ts l what None None None None None None)) by (repeat eexists). specialize (X JJ).
  assert (Y : exists st, runs (types (label_program U)) (calls (label_program U) 2) (f_body c_label_test) (ts l what None None None None None None) (Ret (I32, code (label_test U what l)) st)).
  { destruct (label_test U what l) as [[]|e| |]; cbn [code]; try contradiction; exact X. }
  destruct Y as (st & Y). done_with Y.
Qed.
Lemma text_nfc : forall U l, array32 l -> exists k, isNFC U l = Ok k /\ c_returns U c_isNFC l [(U64, zlen l)] k.
Proof. intros U l (_ & L4). destruct (isNFC_body U 2 l L4) as (k & K & st & X). exists k. split; [exact K|]. done_with X. Qed.
Lemma text_ascii : forall U s, Forall (fun b => 0 <= b <= 255) s -> zlen s < two64 -> bytes_return U c_ascii_p s (if forallb (fun b => b <? 128) s then 1 else 0).
Proof.
  intros U s _ L1. destruct (ascii_body U 2 s L1) as (st & N & E & NO). exists N. intros n H. unfold run.
  match type of E with exec _ _ _ _ ?x = _ => change (mkst (declare c_ascii_p [(U64, zlen s)]) [("src", (U8, map Some s))]) with x end.
  rewrite (runs_at _ _ (lmono U 2) _ _ _ _ E NO n H).
  pose proof (exec_keeps (types (label_program U)) (calls (label_program U) 2) (f_body c_ascii_p) N (as_ s None) eq_refl) as K. rewrite E in K. cbn in K. rewrite K. unfold ascii_p. destruct (forallb (fun b => b <? 128) s); reflexivity.
Qed.

(** The statements. *)
Lemma c_bidi_spec : forall U l, array32 l -> exists rc, c_returns U c_bidi l [(U64, zlen l)] rc /\ (rc = 0 \/ rc = IDN2_BIDI) /\
  (rc = 0 <-> ~ has_rtl (ue_bidi U) l \/ bidi_rule_implemented (ue_bidi U) l).
Proof.
  intros U l A. exists (code (bidi U l)). split; [exact (text_bidi U l A)|]. rewrite <- bidi_iff. destruct (bidi_safe U l) as [E|E]; rewrite E; cbn [code]; split; auto; split; auto; intros X; discriminate X.
Qed.
Lemma mid_pos : forall pre (c : Z) post, 0 <= zlen pre < zlen (pre ++ c :: post). Proof. intros. rewrite zlen_app, zlen_cons. pose proof (z0 _ pre). pose proof (z0 _ post). lia. Qed.
Lemma c_contextj_spec : forall U pre c post, array32 (pre ++ c :: post) ->
  exists rc, c_returns U c_contextj_rule (pre ++ c :: post) [(U64, zlen (pre ++ c :: post)); (U64, zlen pre)] rc /\ (rc = 0 \/ rc = IDN2_CONTEXTJ) /\ (rc = 0 <-> rfc5892_joiner U c pre post).
Proof.
  intros U pre c post A. eexists. split; [exact (text_contextj U _ _ A (mid_pos pre c post))|]. destruct (contextj_rule_spec U pre c post) as [(E & H)|(E & H)]; rewrite E; cbn [code]; split; auto; split; auto; try (intros X; discriminate X); tauto.
Qed.
Lemma c_contexto_spec : forall U pre c post, array32 (pre ++ c :: post) ->
  exists rc, c_returns U c_contexto_rule (pre ++ c :: post) [(U64, zlen (pre ++ c :: post)); (U64, zlen pre)] rc /\ (rc = 0 \/ rc = IDN2_CONTEXTO) /\ (rc = 0 <-> rfc5892_other U c pre post).
Proof.
  intros U pre c post A. eexists. split; [exact (text_contexto U _ _ A (mid_pos pre c post))|]. destruct (contexto_rule_spec U pre c post) as [(E & H)|(E & H)]; rewrite E; cbn [code]; split; auto; split; auto; try (intros X; discriminate X); tauto.
Qed.
Lemma tests_nonzero : forall U what l rc, first_failure (label_tests_spec U what l) (Some rc) -> rc <> 0.
Proof.
  intros U what l rc. assert (K : Forall (fun t : bool * Prop * Z => snd t <> 0) (label_tests_spec U what l)).
  { unfold label_tests_spec. cbv zeta. repeat (apply Forall_cons || apply Forall_nil); cbn [snd]; try discriminate. destruct (bit what 12); discriminate. }
  revert K. generalize (label_tests_spec U what l). intros ts K F. remember (Some rc) as r eqn:R. revert K R. induction F as [|sel Q k ts r H F IH|sel Q k ts H H1]; intros K R; [discriminate R| |].
  - inversion K; subst. auto.
  - injection R as ->. inversion K as [|? ? K1 K2]; subst. exact K1.
Qed.
Lemma returns_fun : forall U f l args a b, c_returns U f l args a -> c_returns U f l args b -> a = b.
Proof. intros U f l args a b X Y. pose proof (returns_one _ _ _ _ X Y) as E. congruence. Qed.
Lemma c_label_spec : forall U what l, array32 l -> nfc_fits U l -> 0 <= what < 2147483648 ->
  (c_returns U c_label_test l [(I32, what); (U64, zlen l)] 0 <-> Forall passes (label_tests_spec U what l)) /\
  (forall rc, rc <> 0 -> (c_returns U c_label_test l [(I32, what); (U64, zlen l)] rc <-> first_failure (label_tests_spec U what l) (Some rc))) /\
  (exists rc, c_returns U c_label_test l [(I32, what); (U64, zlen l)] rc).
Proof.
  intros U what l A N H. pose proof (text_label U what l A N H) as T. pose proof (label_test_ok_iff U what l (array_pos l A)) as OK. pose proof (fun rc => label_test_fail_iff U what l rc (array_pos l A)) as FL.
  pose proof (label_test_safe U what l (array_pos l A)) as S1. split; [|split; [|eauto]].
  - rewrite <- OK. destruct (label_test U what l) as [[]|e| |]; cbn [code] in T; try contradiction S1; [tauto|]. split; [|discriminate]. intros X. pose proof (returns_fun _ _ _ _ _ _ X T) as <-. elim (tests_nonzero U what l 0 (proj1 (FL 0) eq_refl)). reflexivity.
  - intros rc NZ. rewrite <- FL. destruct (label_test U what l) as [[]|e| |]; cbn [code] in T; try contradiction S1.
    + split; [|discriminate]. intros X. elim NZ. exact (returns_fun _ _ _ _ _ _ X T).
    + split; [intros X; rewrite (returns_fun _ _ _ _ _ _ X T); reflexivity|]. intros X. injection X as ->. exact T.
Qed.
Lemma c_ascii_spec : forall U s, Forall (fun b => 0 <= b <= 255) s -> zlen s < two64 -> exists rc, bytes_return U c_ascii_p s rc /\ (rc = 0 \/ rc = 1) /\ (rc = 1 <-> Forall (fun b => b < 128) s).
Proof.
  intros U s B L. eexists. split; [exact (text_ascii U s B L)|]. destruct (forallb (fun b => b <? 128) s) eqn:E; split; auto; split; try discriminate; auto.
  - intros _. apply Forall_forall. rewrite forallb_forall in E. intros x I. specialize (E x I). lia.
  - intros F. rewrite Forall_forall in F. assert (T : forallb (fun b => b <? 128) s = true) by (apply forallb_forall; intros x I; specialize (F x I); lia). congruence.
Qed.
Lemma cell_out : forall l i, zlen l <= i -> cell l i = UB.
Proof. intros l i H. unfold cell. destruct (i <? zlen l) eqn:Q; [lia|]. rewrite andb_false_r. reflexivity. Qed.
Lemma c_outside : forall U l pos, l <> [] -> zlen l < two64 -> zlen l <= pos < two64 ->
  c_undefined U c_contextj_rule l [(U64, zlen l); (U64, pos)] /\ c_undefined U c_contexto_rule l [(U64, zlen l); (U64, pos)].
Proof.
  intros U l pos NE L H. assert (C : cell (map Some l) pos = UB) by (apply cell_out; rewrite zlen_map; lia). assert (Q : (zlen l =? 0) = false) by (destruct l as [|x r]; [congruence|]; rewrite zlen_cons; pose proof (z0 _ r); lia).
  split; exists O; intros n _; unfold run; cbn.
  - unfold cast. cbn. change (u64 0) with 0. rewrite Q. cbn. rewrite C. reflexivity.
  - rewrite C. reflexivity.
Qed.
Lemma c_nfc_spec : forall U l, array32 l -> exists rc, c_returns U c_isNFC l [(U64, zlen l)] rc /\ (rc = 0 \/ rc = 1) /\ (rc = 1 <-> qc_yes (ue_ccc U) 0 (visited false l)).
Proof.
  intros U l A. destruct (text_nfc U l A) as (k & K & T). exists k. split; [exact T|]. destruct (isNFC_spec U l) as [(E & H)|(E & H)]; rewrite E in K; injection K as <-; split; auto; split; auto; [discriminate|tauto].
Qed.
Lemma c_model : forall U l, array32 l ->
  c_returns U c_bidi l [(U64, zlen l)] (code (bidi U l)) /\
  (forall pos, 0 <= pos < zlen l -> c_returns U c_contextj_rule l [(U64, zlen l); (U64, pos)] (code (contextj_rule U l pos)) /\ c_returns U c_contexto_rule l [(U64, zlen l); (U64, pos)] (code (contexto_rule U l pos))) /\
  (nfc_fits U l -> forall what, 0 <= what < 2147483648 -> c_returns U c_label_test l [(I32, what); (U64, zlen l)] (code (label_test U what l))) /\
  (exists k, isNFC U l = Ok k /\ c_returns U c_isNFC l [(U64, zlen l)] k).
Proof.
  intros U l A. split; [exact (text_bidi U l A)|]. split; [intros pos H; exact (conj (text_contextj U l pos A H) (text_contexto U l pos A H))|]. split; [intros N what H; exact (text_label U what l A N H)|exact (text_nfc U l A)].
Qed.
