(** The text of the label tests of lib/idna.c computes what Idna.v says. *)
From Coq Require Import String.
From Verif Require Import Base PunyBase Uenv DataTypes Tables TablesProofs SpecTables SpecLabel ContextProofs BidiProofs Gentr46 Tr46Map Tr46Facts MapProofs Bidi Context Idna CLang CLogic CLeaf CDecode CEncode CLabel SpecCLabel CBidi CContext.
Local Open Scope string_scope.
Local Open Scope list_scope.
Local Open Scope Z_scope.
Arguments calls : simpl never.
Arguments types : simpl never.
Arguments label_program : simpl never.
Arguments cases : simpl never.
Arguments Z.land : simpl never.

Lemma prefix_all : forall l, prefix (map Some l) (zlen l) = Val l.
Proof.
  intros l. unfold prefix. rewrite zlen_map. pose proof (z0 _ l). destruct (0 <=? zlen l) eqn:A; [|lia]. destruct (zlen l <=? zlen l) eqn:B; [|lia]. cbn [andb].
  unfold zlen. rewrite Nat2Z.id, <- (map_length (@Some Z) l), firstn_all. clear. induction l as [|c l IH]; [reflexivity|]. cbn [map fold_right]. rewrite IH. reflexivity.
Qed.

Section Idna.
  Variable U : uenv.
  Notation P := (label_program U).
  Variable d : nat.
  Notation rt := (types P).
  Notation cl := (calls P (S (S d))).
  Notation mono := (lmono U (S (S d))).
  Notation R := (runs rt cl).
  Ltac sq := eapply (runs_seq rt cl mono).
  Ltac sx := eapply (runs_exp rt cl); ev.
  Ltac si := eapply (runs_if rt cl mono).
  Variable l : list Z.
  Hypothesis L4 : 4 * zlen l < two64.
  Hypothesis W : Forall (fun c => 0 <= c) l.
  Variable what : Z.
  Hypothesis HW : 0 <= what.
  Notation ms := (ms l).
  Definition ts (plen ok i map rc tr : option Z) : cst :=
    mkst [("what", (I32, Some what)); ("llen", (U64, Some (zlen l))); ("plen", (I64, plen)); ("ok", (I32, ok)); ("i", (U64, i)); ("map", (U32, map)); ("rc", (I32, rc)); ("transitional", (I32, tr))] ms.

  (** The calls. *)
  Lemma call_j : forall i, 0 <= i < zlen l -> exists n, forall m, (n <= m)%nat -> cl m "_idn2_contextj_rule" [(U64, zlen l); (U64, i)] [(U32, map Some l)] = Val (code (contextj_rule U l i)).
  Proof.
    intros i H. destruct (contextj_body U (S d) l L4 i H) as (st & X). destruct (calls_run P (S d) "_idn2_contextj_rule" c_contextj_rule [(U64, zlen l); (U64, i)] [(U32, map Some l)] _ st eq_refl eq_refl eq_refl eq_refl X) as (n & F).
    exists n. intros m K. rewrite (F m K). reflexivity.
  Qed.
  Lemma call_o : forall i, 0 <= i < zlen l -> exists n, forall m, (n <= m)%nat -> cl m "_idn2_contexto_rule" [(U64, zlen l); (U64, i)] [(U32, map Some l)] = Val (code (contexto_rule U l i)).
  Proof.
    intros i H. destruct (contexto_body U (S d) l L4 i H) as (st & X). destruct (calls_run P (S d) "_idn2_contexto_rule" c_contexto_rule [(U64, zlen l); (U64, i)] [(U32, map Some l)] _ st eq_refl eq_refl eq_refl eq_refl X) as (n & F).
    exists n. intros m K. rewrite (F m K). reflexivity.
  Qed.
  Lemma call_with : forall c, exists n, forall m, (n <= m)%nat -> cl m "_idn2_contexto_with_rule" [(U32, c)] [] = Val (b2z (contexto_with_rule c)).
  Proof.
    intros c. destruct (with_rule_body U (S d) c) as (st & X). destruct (calls_run P (S d) "_idn2_contexto_with_rule" c_contexto_with_rule [(U32, c)] [] _ st eq_refl eq_refl eq_refl eq_refl X) as (n & F).
    exists n. intros m K. rewrite (F m K). destruct (contexto_with_rule c); reflexivity.
  Qed.
  Lemma call_bidi : exists n, forall m, (n <= m)%nat -> cl m "_idn2_bidi" [(U64, zlen l)] [(U32, map Some l)] = Val (code (bidi U l)).
  Proof.
    destruct (bidi_body U d l L4) as (st & X). destruct (calls_run P (S d) "_idn2_bidi" c_bidi [(U64, zlen l)] [(U32, map Some l)] _ st eq_refl eq_refl eq_refl eq_refl X) as (n & F).
    exists n. intros m K. rewrite (F m K). reflexivity.
  Qed.
  Lemma lib_ctxj' : forall n t c, cl n "_idn2_contextj_p" [(t, c)] [] = of_bool (contextj_p c). Proof. reflexivity. Qed.
  Lemma lib_ctxo' : forall n t c, cl n "_idn2_contexto_p" [(t, c)] [] = of_bool (contexto_p c). Proof. reflexivity. Qed.
  Lemma lib_dis : forall n t c, cl n "_idn2_disallowed_p" [(t, c)] [] = of_bool (disallowed_p c). Proof. reflexivity. Qed.
  Lemma lib_una : forall n t c, cl n "_idn2_unassigned_p" [(t, c)] [] = of_bool (unassigned_p c). Proof. reflexivity. Qed.
  Lemma lib_map : forall n t c, cl n "get_idna_map" [(t, c)] [] = match get_idna_map c with Ok (m, _) => Val (m_idx m) | _ => UB end. Proof. reflexivity. Qed.
  Lemma lib_is : forall n t t' m f, cl n "map_is" [(t, m_idx m); (t', f)] [] = of_bool (Tr46Map.map_is m f). Proof. reflexivity. Qed.
  Lemma lib_mark : forall n t c, cl n "uc_is_general_category M" [(t, c)] [] = Val (if ue_mark U c then 1 else 0). Proof. reflexivity. Qed.

  (** Triples: from a state in [A] the statement goes on to a state in [B] if the test
      passes and returns its error if it fails. *)
  Definition does (A B : cst -> Prop) (s : stmt) (o : out unit) : Prop := forall st, A st ->
    match o with Ok _ => exists st', B st' /\ R s st (Norm st') | Fail e => exists st', R s st (Ret (I32, e) st') | _ => False end.
  Definition ends (A : cst -> Prop) (s : stmt) (o : out unit) : Prop := forall st, A st ->
    match o with Ok _ => exists st', R s st (Ret (I32, 0) st') | Fail e => exists st', R s st (Ret (I32, e) st') | _ => False end.
  Lemma does_seq : forall A B C a b o p, does A B a o -> does B C b p -> does A C (SSeq a b) (let* _ := o in p).
  Proof.
    intros A B C a b o p H K st X. specialize (H st X). destruct o as [[]|e| |]; cbn [bind]; try contradiction.
    - destruct H as (s1 & Y & H). specialize (K s1 Y). destruct p as [[]|e| |]; try contradiction.
      + destruct K as (s2 & Z2 & K). exists s2. split; [exact Z2|]. sq; [exact H|exact K].
      + destruct K as (s2 & K). exists s2. sq; [exact H|exact K].
    - destruct H as (s1 & H). exists s1. eapply (runs_seq_stop rt cl); [exact H|exact I].
  Qed.
  Lemma ends_seq : forall A B a b o p, does A B a o -> ends B b p -> ends A (SSeq a b) (let* _ := o in p).
  Proof.
    intros A B a b o p H K st X. specialize (H st X). destruct o as [[]|e| |]; cbn [bind]; try contradiction.
    - destruct H as (s1 & Y & H). specialize (K s1 Y). destruct p as [[]|e| |]; try contradiction; destruct K as (s2 & K); exists s2; (sq; [exact H|exact K]).
    - destruct H as (s1 & H). exists s1. eapply (runs_seq_stop rt cl); [exact H|exact I].
  Qed.
  (** Between the tests, and in the loop at position [i]. *)
  Definition J (st : cst) : Prop := exists plen ok i map rc tr, st = ts plen ok i map rc tr.
  Definition Jt (tr : option Z) (st : cst) : Prop := exists plen ok i map rc, st = ts plen ok i map rc tr.
  Definition Ji (tr : option Z) (i : Z) (st : cst) : Prop := exists plen ok map rc, st = ts plen ok (Some i) map rc tr.
  Lemma Jt_J : forall tr st, Jt tr st -> J st. Proof. intros tr st (a & b & c & e & f & ->). exists a, b, c, e, f, tr. reflexivity. Qed.
  Lemma J_Jt : forall st, J st -> exists tr, Jt tr st. Proof. intros st (a & b & c & e & f & tr & ->). exists tr, a, b, c, e, f. reflexivity. Qed.
  Lemma ends_last : forall a o, does J J a o -> ends J (SSeq a (SReturn (int 0))) o.
  Proof.
    intros a o H st X. specialize (H st X). destruct o as [[]|e| |]; try contradiction.
    - destruct H as (s1 & Y & H). exists s1. sq; [exact H|]. eapply (runs_ret rt cl). exists O. reflexivity.
    - destruct H as (s1 & H). exists s1. eapply (runs_seq_stop rt cl); [exact H|exact I].
  Qed.
  Lemma what_eval : forall F st, 0 <= F -> J st -> evals rt cl (EBin BAnd (EVar "what") (int F)) st (I32, Z.land what F) st.
  Proof. intros F st H (a & b & c & e & f & tr & ->). ev. destruct (what <? 0) eqn:Q; [lia|]. destruct (F <? 0) eqn:Q2; [lia|]. reflexivity. Qed.
  Lemma what_or_eval : forall F G st, 0 <= F -> 0 <= G -> J st -> evals rt cl (EBin BAnd (EVar "what") (EBin BOr (int F) (int G))) st (I32, Z.land what (Z.lor F G)) st.
  Proof.
    intros F G st H H2 (a & b & c & e & f & tr & ->). exists O. cbn -[Z.lor]. unfold cast. cbn -[Z.lor]. destruct (F <? 0) eqn:Q; [lia|]. destruct (G <? 0) eqn:Q1; [lia|]. cbn -[Z.lor]. destruct (what <? 0) eqn:Q2; [lia|].
    destruct (Z.lor F G <? 0) eqn:Q3; [pose proof (proj2 (Z.lor_nonneg F G) (conj H H2)); lia|]. reflexivity.
  Qed.
  Lemma does_flag : forall F s o, 0 <= F -> does J J s o -> does J J (SIf (EBin BAnd (EVar "what") (int F)) s SSkip) (Idna.when (has what F) o).
  Proof.
    intros F s o HF H st X. pose proof (what_eval F st HF X) as E. unfold Idna.when, has. destruct (Z.land what F =? 0) eqn:Q; cbn [negb].
    - exists st. split; [exact X|]. si; [exact E|]. cbn [snd]. rewrite Q. apply runs_skip.
    - specialize (H st X). destruct o as [[]|e| |]; try contradiction.
      + destruct H as (s1 & Y & H). exists s1. split; [exact Y|]. si; [exact E|]. cbn [snd]. rewrite Q. exact H.
      + destruct H as (s1 & H). exists s1. si; [exact E|]. cbn [snd]. rewrite Q. exact H.
  Qed.
  (** A loop over the label. *)
  Definition body_does (tr : option Z) (i : Z) (s : stmt) (o : out unit) : Prop := forall st, Ji tr i st ->
    match o with Ok _ => exists st', Ji tr i st' /\ (R s st (Norm st') \/ R s st (Cnt st')) | Fail e => exists st', R s st (Ret (I32, e) st') | _ => False end.
  Definition over (s : stmt) : stmt := SLoop (EBin Lt (EVar "i") (EVar "llen")) (SExp (EPost "i")) s.
  Lemma loop_pos : forall tr s f, (forall i, 0 <= i < zlen l -> body_does tr i s (f i)) -> forall n i st, 0 <= i -> i + Z.of_nat n = zlen l -> Ji tr i st ->
    match each_pos f n i with Ok _ => exists st', Jt tr st' /\ R (over s) st (Norm st') | Fail e => exists st', R (over s) st (Ret (I32, e) st') | _ => False end.
  Proof.
    intros tr s f B. induction n as [|n IH]; intros i st H0 H1 X; cbn [each_pos].
    - destruct X as (a & b & c & e & ->). eexists. split; [|eapply (runs_loop_end rt cl mono); [ev|]; cc; destruct (i <? zlen l) eqn:Q; [lia|reflexivity]]. exists a, b, (Some i), c, e. reflexivity.
    - assert (C : evals rt cl (EBin Lt (EVar "i") (EVar "llen")) st (I32, 1) st). { destruct X as (a & b & c & e & ->). ev. destruct (i <? zlen l) eqn:Q; [reflexivity|lia]. }
      specialize (B i ltac:(lia) st X). destruct (f i) as [[]|e| |]; cbn [bind]; try contradiction.
      + destruct B as (s1 & Y & B). assert (N : exists s2, Ji tr (i + 1) s2 /\ R (SExp (EPost "i")) s1 (Norm s2)).
        { destruct Y as (a & b & c & e & ->). exists (ts a b (Some (i + 1)) c e tr). split; [exists a, b, c, e; reflexivity|]. sx. rewrite (u64_id (i + 1)) by (unfold two64 in *; lia). reflexivity. }
        destruct N as (s2 & Y2 & N). specialize (IH (i + 1) s2 ltac:(lia) ltac:(lia) Y2).
        assert (G : forall o, R (over s) s2 o -> R (over s) st o).
        { intros o Z1. destruct B as [B|B]; [eapply (runs_loop_next rt cl mono)|eapply (runs_loop_cont rt cl mono)]; try exact C; try discriminate; try exact B; try exact N; exact Z1. }
        destruct (each_pos f n (i + 1)) as [[]|e| |]; try contradiction.
        * destruct IH as (s3 & Y3 & IH). exists s3. split; [exact Y3|]. apply G, IH.
        * destruct IH as (s3 & IH). exists s3. apply G, IH.
      + destruct B as (s1 & B). exists s1. eapply (runs_loop_stop rt cl mono) with (o := Ret _ _); [exact C|discriminate|exact B|exact I].
  Qed.
  Lemma Ji_start : forall tr st, Jt tr st -> exists st', Ji tr 0 st' /\ R (SExp (EAsg "i" (int 0))) st (Norm st').
  Proof. intros tr st (a & b & c & e & f & ->). eexists. split; [|sx]. exists a, b, e, f. reflexivity. Qed.
  Lemma does_pos : forall tr s f, (forall i, 0 <= i < zlen l -> body_does tr i s (f i)) -> does (Jt tr) (Jt tr) (SSeq (SExp (EAsg "i" (int 0))) (over s)) (each_pos f (length l) 0).
  Proof.
    intros tr s f B st X. destruct (Ji_start tr st X) as (s1 & Y & S1). pose proof (loop_pos tr s f B (length l) 0 s1 ltac:(lia) ltac:(unfold zlen; lia) Y) as K.
    destruct (each_pos f (length l) 0) as [[]|e| |]; try contradiction.
    - destruct K as (s2 & Y2 & K). exists s2. split; [exact Y2|]. sq; [exact S1|exact K].
    - destruct K as (s2 & K). exists s2. sq; [exact S1|exact K].
  Qed.
  Lemma each_is_pos : forall f g r p, l = p ++ r -> (forall i c, rd l i = Ok c -> g i = f c) -> each_pos g (length r) (zlen p) = each f r.
  Proof.
    intros f g. induction r as [|c r IH]; intros p E H; [reflexivity|]. cbn [length each_pos each]. rewrite (H (zlen p) c).
    - destruct (f c); cbn [bind]; try reflexivity. specialize (IH (p ++ [c]) ltac:(rewrite <- app_assoc; exact E) H). rewrite zlen_app in IH. exact IH.
    - unfold rd. pose proof (z0 _ p). destruct (zlen p <? 0) eqn:N; [lia|]. rewrite E. unfold zlen. rewrite Nat2Z.id, nth_error_app2, Nat.sub_diag by lia. reflexivity.
  Qed.
  Lemma does_each : forall tr s f, (forall i c, rd l i = Ok c -> 0 <= c -> body_does tr i s (f c)) -> does (Jt tr) (Jt tr) (SSeq (SExp (EAsg "i" (int 0))) (over s)) (each f l).
  Proof.
    intros tr s f B. rewrite <- (each_is_pos f (fun i => match rd l i with Ok c => f c | _ => Ok tt end) l [] eq_refl) by (intros i c E; rewrite E; reflexivity).
    apply does_pos. intros i H. destruct (rd_in l i H) as (c & E). rewrite E. apply B; [exact E|].
    rewrite Forall_forall in W. apply W. unfold rd in E. destruct (i <? 0); [discriminate E|]. destruct (nth_error l (Z.to_nat i)) as [x|] eqn:X; [|discriminate E]. injection E as <-. exact (nth_error_In _ _ X).
  Qed.
  Lemma does_any : forall s o, (forall tr, does (Jt tr) (Jt tr) s o) -> does J J s o.
  Proof.
    intros s o H st X. destruct (J_Jt st X) as (tr & Y). specialize (H tr st Y). destruct o as [[]|e| |]; try contradiction; [|exact H].
    destruct H as (s1 & Z1 & H). exists s1. split; [exact (Jt_J tr s1 Z1)|exact H].
  Qed.

  (** The tests of one code point. *)
  Definition t_items : list stmt := Eval cbn in flat (f_body c_label_test).
  Definition inner (s : stmt) : stmt := match s with SIf _ a _ => a | s => s end.
  Definition looped (s : stmt) : stmt := match s with SSeq _ (SLoop _ _ b) => b | s => s end.
  Lemma one_p : forall (pn : string) (pr : Z -> out bool) (e : Z), (forall n t c, cl n pn [(t, c)] [] = of_bool (pr c)) -> rt pn = I32 ->
    forall f : Z -> out unit, (forall c, f c = let* b := pr c in if b then Fail e else Ok tt) -> (forall c, exists b, pr c = Ok b) ->
    forall tr i c, rd l i = Ok c -> body_does tr i (SIf (ECall pn [] [EIdx "label" (EVar "i")]) (SReturn (int e)) SSkip) (f c).
  Proof.
    intros pn pr e L T f F TOT tr i c E st X. rewrite F. destruct (TOT c) as (b & B). rewrite B. cbn [bind].
    assert (C : evals rt cl (ECall pn [] [EIdx "label" (EVar "i")]) st (I32, b2z b) st).
    { destruct X as (pl & ok & mp & rc & ->). exists O. cbn. rewrite (cell_rd _ _ _ E). cbn. rewrite L, B, T. reflexivity. }
    destruct b.
    - exists st. si; [exact C|]. cbn. eapply (runs_ret rt cl). ev.
    - exists st. split; [exact X|]. left. si; [exact C|]. cbn. apply runs_skip.
  Qed.
  Lemma tot_p : forall k c, exists b, (let* p := property c in Ok (prop_eqb p k)) = Ok b.
  Proof. intros k c. rewrite property_spec. cbn. eauto. Qed.
  Lemma body_j : forall tr i c, rd l i = Ok c -> body_does tr i (looped (inner (nth 5 t_items SSkip))) (test_contextj1 c).
  Proof. apply (one_p "_idn2_contextj_p" contextj_p); auto; try reflexivity. exact (tot_p CONTEXTJ). Qed.
  Lemma body_o : forall tr i c, rd l i = Ok c -> body_does tr i (looped (inner (nth 7 t_items SSkip))) (test_contexto1 c).
  Proof. apply (one_p "_idn2_contexto_p" contexto_p); auto; try reflexivity. exact (tot_p CONTEXTO). Qed.
  Lemma body_u : forall tr i c, rd l i = Ok c -> body_does tr i (looped (inner (nth 10 t_items SSkip))) (test_unassigned1 c).
  Proof. apply (one_p "_idn2_unassigned_p" unassigned_p); auto; try reflexivity. exact (tot_p UNASSIGNED). Qed.

  (** map_is *)
  Lemma is_eval : forall m s st, (exists i tr plen ok rc, st = ts plen ok i (Some (m_idx m)) rc tr) -> forall f b, f = flag_of s -> Tr46Map.map_is m f = Ok b -> evals rt cl (map_is f) st (I32, b2z b) st.
  Proof. intros m s st (i & tr & plen & ok & rc & ->) f b -> B. exists O. cbn. rewrite lib_is, B. destruct b; reflexivity. Qed.
  Lemma get_map : forall i c m k st tr, rd l i = Ok c -> get_idna_map c = Ok (m, k) -> Ji tr i st -> exists plen ok rc,
    R (SExp (EAsg "map" (ECall "get_idna_map" [] [EIdx "label" (EVar "i")]))) st (Norm (ts plen ok (Some i) (Some (m_idx m)) rc tr)).
  Proof.
    intros i c m k st tr E G (plen & ok & mp & rc & ->). exists plen, ok, rc. eapply (runs_exp rt cl). exists O. cbn. rewrite (cell_rd _ _ _ E). cbn. rewrite lib_map, G. reflexivity.
  Qed.
  Lemma or_eval : forall a b st x y, evals rt cl a st (I32, b2z x) st -> evals rt cl b st (I32, b2z y) st -> evals rt cl (EOr a b) st (I32, b2z (x || y)) st.
  Proof.
    intros a b st x y (n & A) (m & B). exists (max n m). cbn [eval]. rewrite (evals_at rt cl mono _ _ _ _ _ A) by lia. cbn. destruct x; cbn; [reflexivity|].
    rewrite (evals_at rt cl mono _ _ _ _ _ B) by lia. cbn. destruct y; reflexivity.
  Qed.
  Lemma and_eval : forall a b st z x y, (z =? 0) = negb x -> evals rt cl a st (I32, z) st -> (x = true -> evals rt cl b st (I32, y) st) -> evals rt cl (EAnd a b) st (I32, b2z (x && negb (y =? 0))) st.
  Proof.
    intros a b st z x y Q (n & A) B. destruct x; cbn [negb] in Q.
    - destruct (B eq_refl) as (m & B'). exists (max n m). cbn [eval]. rewrite (evals_at rt cl mono _ _ _ _ _ A) by lia. cbn. rewrite Q. rewrite (evals_at rt cl mono _ _ _ _ _ B') by lia. cbn. destruct (y =? 0); reflexivity.
    - exists n. cbn [eval]. rewrite A. cbn. rewrite Q. reflexivity.
  Qed.
  Lemma b2z0 : forall b, (b2z b =? 0) = negb b. Proof. intros []; reflexivity. Qed.
  Lemma body_dis : forall tr i c, rd l i = Ok c -> 0 <= c -> body_does tr i (looped (inner (nth 4 t_items SSkip))) (test_disallowed1 what c).
  Proof.
    intros tr i c E C0 st X. unfold test_disallowed1, disallowed_p. rewrite property_spec. cbn [bind].
    assert (C : evals rt cl (ECall "_idn2_disallowed_p" [] [EIdx "label" (EVar "i")]) st (I32, b2z (prop_eqb (csv_property c) DISALLOWED)) st).
    { destruct X as (pl & ok & mp & rc & ->). exists O. cbn. rewrite (cell_rd _ _ _ E). cbn. rewrite lib_dis. unfold disallowed_p. rewrite property_spec. cbn. reflexivity. }
    destruct (prop_eqb (csv_property c) DISALLOWED).
    2: { exists st. split; [exact X|]. left. si; [exact C|]. cbn. apply runs_skip. }
    assert (JX : J st). { destruct X as (pl & ok & mp & rc & ->). exists pl, ok, (Some i), mp, rc, tr. reflexivity. }
    pose proof (what_or_eval TEST_TRANSITIONAL TEST_NONTRANSITIONAL st ltac:(discriminate) ltac:(discriminate) JX) as F1. pose proof (what_eval TEST_ALLOW_STD3_DISALLOWED st ltac:(discriminate) JX) as F2.
    pose proof (and_eval _ _ st _ (has what (Z.lor TEST_TRANSITIONAL TEST_NONTRANSITIONAL)) _ (eq_sym (negb_involutive _)) F1 (fun _ => F2)) as F. fold (has what TEST_ALLOW_STD3_DISALLOWED) in F. clear F1 F2.
    destruct (has what (Z.lor TEST_TRANSITIONAL TEST_NONTRANSITIONAL) && has what TEST_ALLOW_STD3_DISALLOWED).
    2: { exists st. si; [exact C|]. cbn. sq; [si; [exact F|]; cbn; apply runs_skip|]. eapply (runs_ret rt cl). ev. }
    destruct (map_flags c C0) as (m & k & G & _ & _ & _ & _ & _ & M1 & M2 & _). rewrite G. cbn [bind]. unfold std3_exempt. rewrite M1. cbn [bind].
    destruct (get_map i c m k st tr E G X) as (pl & ok & rc & S1). set (s1 := ts pl ok (Some i) (Some (m_idx m)) rc tr) in *.
    assert (S2 : evals rt cl (EOr (map_is FLG_DISALLOWED_STD3_VALID) (map_is FLG_DISALLOWED_STD3_MAPPED)) s1 (I32, b2z (status_eqb (status_of c) Std3Valid || status_eqb (status_of c) Std3Mapped)) s1).
    { apply or_eval; [apply (is_eval m Std3Valid)|apply (is_eval m Std3Mapped)]; try reflexivity; try assumption; unfold s1; repeat eexists. }
    assert (XX : Ji tr i s1) by (unfold s1; exists pl, ok, (Some (m_idx m)), rc; reflexivity).
    assert (YES : status_eqb (status_of c) Std3Valid || status_eqb (status_of c) Std3Mapped = true -> exists st', Ji tr i st' /\ (R (looped (inner (nth 4 t_items SSkip))) st (Norm st') \/ R (looped (inner (nth 4 t_items SSkip))) st (Cnt st'))).
    { intros Q. rewrite Q in S2. exists s1. split; [exact XX|]. right. si; [exact C|]. cbn. eapply (runs_seq_stop rt cl); [|exact I]. si; [exact F|]. cbn. sq; [exact S1|]. si; [exact S2|]. cbn. apply runs_cnt. }
    assert (NO : status_eqb (status_of c) Std3Valid || status_eqb (status_of c) Std3Mapped = false -> exists st', R (looped (inner (nth 4 t_items SSkip))) st (Ret (I32, IDN2_DISALLOWED) st')).
    { intros Q. rewrite Q in S2. exists s1. si; [exact C|]. cbn. sq; [si; [exact F|]; cbn; sq; [exact S1|]; si; [exact S2|]; cbn; apply runs_skip|]. eapply (runs_ret rt cl). ev. }
    destruct (status_eqb (status_of c) Std3Valid); cbn [bind orb] in *; [exact (YES eq_refl)|]. rewrite M2. cbn [bind]. destruct (status_eqb (status_of c) Std3Mapped); [exact (YES eq_refl)|exact (NO eq_refl)].
  Qed.
  Lemma split_at : forall i, 0 <= i < zlen l -> exists p c r, l = p ++ c :: r /\ i = zlen p.
  Proof.
    intros i H. destruct (rd_in l i H) as (c & E). unfold rd in E. destruct (i <? 0); [discriminate E|]. destruct (nth_error l (Z.to_nat i)) as [x|] eqn:X; [|discriminate E].
    destruct (nth_error_split l _ X) as (p & r & -> & L). exists p, x, r. split; [reflexivity|]. unfold zlen. lia.
  Qed.
  (** The tests at a position. *)
  Lemma rule_p : forall (rn : string) (rule : Z -> out unit), rt rn = I32 -> (forall i, 0 <= i < zlen l -> exists n, forall m, (n <= m)%nat -> cl m rn [(U64, zlen l); (U64, i)] [(U32, map Some l)] = Val (code (rule i))) ->
    (forall i, 0 <= i < zlen l -> rule i = Ok tt \/ exists e, rule i = Fail e /\ (e =? 0) = false) ->
    forall tr i, 0 <= i < zlen l -> body_does tr i (SSeq (SExp (EAsg "rc" (ECall rn ["label"] [EVar "llen"; EVar "i"]))) (SIf (EBin Ne (EVar "rc") (int 0)) (SReturn (EVar "rc")) SSkip)) (rule i).
  Proof.
    intros rn rule T CALL OUT tr i H st X. destruct X as (pl & ok & mp & rc & ->). destruct (CALL i H) as (n & F).
    assert (S1 : R (SExp (EAsg "rc" (ECall rn ["label"] [EVar "llen"; EVar "i"]))) (ts pl ok (Some i) mp rc tr) (Norm (ts pl ok (Some i) mp (Some (code (rule i))) tr))).
    { eapply (runs_exp rt cl). exists n. cbn. rewrite (F n) by lia. cbn. rewrite T. reflexivity. }
    assert (S2 : evals rt cl (EBin Ne (EVar "rc") (int 0)) (ts pl ok (Some i) mp (Some (code (rule i))) tr) (I32, b2z (negb (code (rule i) =? 0))) (ts pl ok (Some i) mp (Some (code (rule i))) tr)) by (ev; destruct (code (rule i) =? 0); reflexivity).
    destruct (OUT i H) as [E|(e & E & N)]; rewrite E in *; cbn [code] in *.
    - eexists. split; [|left; sq; [exact S1|]; si; [exact S2|]; cbn; apply runs_skip]. exists pl, ok, mp, (Some 0). reflexivity.
    - rewrite N in S2. eexists. sq; [exact S1|]. si; [exact S2|]. cbn. eapply (runs_ret rt cl). ev.
  Qed.
  Lemma body_jr : forall tr i, 0 <= i < zlen l -> body_does tr i (looped (inner (nth 6 t_items SSkip))) (contextj_rule U l i).
  Proof.
    apply rule_p; [reflexivity|exact call_j|]. intros i H. destruct (split_at i H) as (p & c & r & -> & ->). destruct (contextj_rule_spec U p c r) as [(-> & _)|(-> & _)]; [left; reflexivity|right; eexists; split; reflexivity].
  Qed.
  Lemma body_or : forall tr i, 0 <= i < zlen l -> body_does tr i (looped (inner (nth 9 t_items SSkip))) (contexto_rule U l i).
  Proof.
    apply rule_p; [reflexivity|exact call_o|]. intros i H. destruct (split_at i H) as (p & c & r & -> & ->). destruct (contexto_rule_spec U p c r) as [(-> & _)|(-> & _)]; [left; reflexivity|right; eexists; split; reflexivity].
  Qed.
  Lemma body_ow : forall tr i c, rd l i = Ok c -> body_does tr i (looped (inner (nth 8 t_items SSkip))) (test_contexto_with1 c).
  Proof.
    intros tr i c E st X. unfold test_contexto_with1, contexto_p. rewrite property_spec. cbn [bind]. destruct (call_with c) as (n & F).
    assert (C1 : evals rt cl (ECall "_idn2_contexto_p" [] [EIdx "label" (EVar "i")]) st (I32, b2z (prop_eqb (csv_property c) CONTEXTO)) st).
    { destruct X as (pl & ok & mp & rc & ->). exists O. cbn. rewrite (cell_rd _ _ _ E). cbn. rewrite lib_ctxo'. unfold contexto_p. rewrite property_spec. cbn. reflexivity. }
    assert (C2 : evals rt cl (ENot (ECall "_idn2_contexto_with_rule" [] [EIdx "label" (EVar "i")])) st (I32, b2z (negb (contexto_with_rule c))) st).
    { destruct X as (pl & ok & mp & rc & ->). exists n. cbn. rewrite (cell_rd _ _ _ E). cbn. rewrite (F n) by lia. cbn. destruct (contexto_with_rule c); reflexivity. }
    pose proof (and_eval _ _ st _ _ _ (b2z0 _) C1 (fun _ => C2)) as C. rewrite b2z0, negb_involutive in C. destruct (prop_eqb (csv_property c) CONTEXTO && negb (contexto_with_rule c)).
    - exists st. si; [exact C|]. cbn. eapply (runs_ret rt cl). ev.
    - exists st. split; [exact X|]. left. si; [exact C|]. cbn. apply runs_skip.
  Qed.
  Definition t_last : list stmt := Eval cbn in flat (inner (nth 12 t_items SSkip)).
  Definition t_status : stmt := Eval cbn in match nth 3 t_last SSkip with SLoop _ _ b => b | s => s end.
  Lemma body_dot : forall tr i c, rd l i = Ok c -> body_does tr i (looped (nth 1 t_last SSkip)) (test_dot1 c).
  Proof.
    intros tr i c E st X. unfold test_dot1.
    assert (C : evals rt cl (EBin Eq (EIdx "label" (EVar "i")) (int 46)) st (I32, b2z (c =? 46)) st) by (destruct X as (pl & ok & mp & rc & ->); ev; rewrite (cell_rd _ _ _ E); cc; destruct (c =? 46); reflexivity).
    destruct (c =? 46).
    - exists st. si; [exact C|]. cbn. eapply (runs_ret rt cl). ev.
    - exists st. split; [exact X|]. left. si; [exact C|]. cbn. apply runs_skip.
  Qed.
  Lemma body_status : forall i c, rd l i = Ok c -> 0 <= c -> body_does (Some (Z.land what TEST_TRANSITIONAL)) i t_status (test_status1 what c).
  Proof.
    intros i c E C0 st X. unfold test_status1. set (tr := Z.land what TEST_TRANSITIONAL) in *. assert (HT : has what TEST_TRANSITIONAL = negb (tr =? 0)) by reflexivity. rewrite HT.
    destruct (map_flags c C0) as (m & k & G & _ & _ & MV & _ & MD & M1 & M2 & _). rewrite G. cbn [bind]. rewrite MV. cbn [bind].
    destruct (get_map i c m k st (Some tr) E G X) as (pl & ok & rc & S1). set (s1 := ts pl ok (Some i) (Some (m_idx m)) rc (Some tr)) in *.
    assert (XX : Ji (Some tr) i s1) by (unfold s1; exists pl, ok, (Some (m_idx m)), rc; reflexivity).
    assert (JX : J s1) by (unfold s1; exists pl, ok, (Some i), (Some (m_idx m)), rc, (Some tr); reflexivity).
    assert (IS : forall s b, Tr46Map.map_is m (flag_of s) = Ok b -> evals rt cl (map_is (flag_of s)) s1 (I32, b2z b) s1) by (intros s b B; eapply (is_eval m s); [unfold s1; repeat eexists|reflexivity|exact B]).
    assert (T : evals rt cl (ENot (EVar "transitional")) s1 (I32, b2z (tr =? 0)) s1) by (unfold s1; ev).
    pose proof (IS Valid _ MV) as IV. pose proof (IS Deviation _ MD) as ID. pose proof (IS Std3Valid _ M1) as I1. pose proof (IS Std3Mapped _ M2) as I2. clear IS.
    pose proof (and_eval _ _ s1 _ (tr =? 0) _ (b2z0 _) T (fun _ => ID)) as A1. rewrite b2z0, negb_involutive in A1. pose proof (or_eval _ _ s1 _ _ IV A1) as A2. clear A1.
    pose proof (or_eval _ _ s1 _ _ I1 I2) as B1. pose proof (and_eval _ _ s1 _ (has what TEST_ALLOW_STD3_DISALLOWED) _ (eq_sym (negb_involutive _)) (what_eval TEST_ALLOW_STD3_DISALLOWED s1 ltac:(discriminate) JX) (fun _ => B1)) as B2. rewrite b2z0, negb_involutive in B2. clear B1.
    set (x := status_eqb (status_of c) Valid || (tr =? 0) && status_eqb (status_of c) Deviation) in *. set (y := has what TEST_ALLOW_STD3_DISALLOWED && (status_eqb (status_of c) Std3Valid || status_eqb (status_of c) Std3Mapped)) in *.
    assert (O1 : (if status_eqb (status_of c) Valid then Ok true else if negb (negb (tr =? 0)) then Tr46Map.map_is m FLG_DEVIATION else Ok false) = Ok x).
    { unfold x. destruct (status_eqb (status_of c) Valid); [reflexivity|]. rewrite negb_involutive. destruct (tr =? 0); [exact MD|reflexivity]. }
    assert (O2 : (if has what TEST_ALLOW_STD3_DISALLOWED then std3_exempt m else Ok false) = Ok y).
    { unfold y, std3_exempt. destruct (has what TEST_ALLOW_STD3_DISALLOWED); [|reflexivity]. rewrite M1. cbn [bind]. destruct (status_eqb (status_of c) Std3Valid); [reflexivity|exact M2]. }
    rewrite O1. cbn [bind]. destruct x.
    - exists s1. split; [exact XX|]. right. sq; [exact S1|]. eapply (runs_seq_stop rt cl); [|exact I]. si; [exact A2|]. cbn. apply runs_cnt.
    - rewrite O2. cbn [bind]. destruct y.
      + exists s1. split; [exact XX|]. right. sq; [exact S1|]. sq; [si; [exact A2|]; cbn; apply runs_skip|]. eapply (runs_seq_stop rt cl); [|exact I]. si; [exact B2|]. cbn. apply runs_cnt.
      + exists s1. sq; [exact S1|]. sq; [si; [exact A2|]; cbn; apply runs_skip|]. sq; [si; [exact B2|]; cbn; apply runs_skip|]. eapply (runs_ret rt cl). unfold s1. ev. destruct (tr =? 0); reflexivity.
  Qed.

  (** The tests of the whole label. *)
  Hypothesis HN : forall q, ue_nfc U l = Some q -> 4 * zlen q < two64.
  Lemma does_nfc : does J J (inner (nth 0 t_items SSkip)) (test_nfc U l).
  Proof.
    intros st (pl & ok & i & mp & rc & tr & ->). unfold test_nfc.
    assert (N : forall n t, cl n "u32_normalize" [(t, zlen l)] [(U32, map Some l)] = Val (match ue_nfc U l with Some p => zlen p | None => -1 end)).
    { intros n t. change (cl n "u32_normalize" [(t, zlen l)] [(U32, map Some l)]) with (rbind (prefix (map Some l) (zlen l)) (fun l => Val (match ue_nfc U l with Some p => zlen p | None => -1 end))). rewrite prefix_all. reflexivity. }
    set (v := match ue_nfc U l with Some p => zlen p | None => -1 end) in *.
    assert (S1 : R (SExp (EAsg "plen" (ECall "u32_normalize" ["label"] [EVar "llen"]))) (ts pl ok i mp rc tr) (Norm (ts (Some v) ok i mp rc tr))).
    { eapply (runs_exp rt cl). exists O. cbn. rewrite N. reflexivity. }
    assert (S2 : evals rt cl (EBin Eq (EVar "plen") (EBin Sub (int 0) (int 1))) (ts (Some v) ok i mp rc tr) (I32, b2z (v =? -1)) (ts (Some v) ok i mp rc tr)) by (ev; destruct (v =? -1); reflexivity).
    destruct (ue_nfc U l) as [q|] eqn:Q; unfold v in *; clear v; unfold Utf8.conv; cbn [bind].
    2: { eexists. sq; [exact S1|]. eapply (runs_seq_stop rt cl); [|exact I]. si; [exact S2|]. cbn. eapply (runs_ret rt cl). ev. }
    assert (NN : (zlen q =? -1) = false) by (pose proof (z0 _ q); lia). rewrite NN in S2.
    assert (M : zlen l = zlen q -> forall n t, cl n "memcmp normalized" [(t, zlen q)] [(U32, map Some l)] = Val (if list_eqb l q then 0 else 1)).
    { intros EQ n t. change (cl n "memcmp normalized" [(t, zlen q)] [(U32, map Some l)]) with (rbind (prefix (map Some l) (zlen q)) (fun l => match ue_nfc U l with Some p => Val (if list_eqb l p then 0 else 1) | None => UB end)). rewrite <- EQ, prefix_all. cbn [rbind]. rewrite Q. reflexivity. }
    assert (LE : list_eqb l q = true -> zlen l = zlen q) by (clear; intros E; f_equal; revert q E; induction l as [|a r IH]; intros [|b q] E; cbn in E; try discriminate; auto; apply andb_true_iff in E; destruct E as (E1 & E2); apply Z.eqb_eq in E1; f_equal; auto).
    assert (S3 : R (SExp (EAsg "ok" (EAnd (EBin Eq (EVar "llen") (EVar "plen")) (EBin Eq (ECall "memcmp normalized" ["label"] [EVar "plen"]) (int 0))))) (ts (Some (zlen q)) ok i mp rc tr) (Norm (ts (Some (zlen q)) (Some (b2z (list_eqb l q))) i mp rc tr))).
    { eapply (runs_exp rt cl) with (v := (I32, b2z (list_eqb l q))). exists O. cc. destruct (zlen l =? u64 (zlen q)) eqn:EL; cbn.
      - assert (EQ : zlen l = zlen q). { apply Z.eqb_eq in EL. rewrite u64_id in EL by (pose proof (HN q eq_refl); pose proof (z0 _ q); unfold two64 in *; lia). exact EL. }
        rewrite (M EQ). destruct (list_eqb l q); reflexivity.
      - destruct (list_eqb l q) eqn:LQ; [|reflexivity]. rewrite <- (LE eq_refl), u64_id, Z.eqb_refl in EL by (pose proof (z0 _ l); unfold two64 in *; lia). discriminate EL. }
    assert (S4 : evals rt cl (ENot (EVar "ok")) (ts (Some (zlen q)) (Some (b2z (list_eqb l q))) i mp rc tr) (I32, b2z (negb (list_eqb l q))) (ts (Some (zlen q)) (Some (b2z (list_eqb l q))) i mp rc tr)) by (ev; destruct (list_eqb l q); reflexivity).
    destruct (list_eqb l q); cbn [negb] in S4.
    - eexists. split; [|sq; [exact S1|]; sq; [si; [exact S2|]; cbn; apply runs_skip|]; sq; [exact S3|]; si; [exact S4|]; cbn; apply runs_skip]. exists (Some (zlen q)), (Some 1), i, mp, rc, tr. reflexivity.
    - eexists. sq; [exact S1|]. sq; [si; [exact S2|]; cbn; apply runs_skip|]. sq; [exact S3|]. si; [exact S4|]. cbn. eapply (runs_ret rt cl). ev.
  Qed.

  Lemma does_2hyphen : does J J (inner (nth 1 t_items SSkip)) (test_2hyphen l).
  Proof.
    intros st X. assert (C : evals rt cl (EAnd (EAnd (EBin Ge (EVar "llen") (int 4)) (EBin Eq (EIdx "label" (int 2)) (int 45))) (EBin Eq (EIdx "label" (int 3)) (int 45))) st
      (I32, b2z (match l with _ :: _ :: c2 :: c3 :: _ => (c2 =? 0x2d) && (c3 =? 0x2d) | _ => false end)) st).
    { destruct X as (pl & ok & i & mp & rc & tr & ->). ev. destruct (4 <=? zlen l) eqn:Q.
      - destruct l as [|a [|b [|c2 [|c3 r] ] ] ] eqn:El; try discriminate Q. rewrite <- El in *.
        cc. change 2 with (zlen [a; b]). rewrite (cell_at l [a; b] c2 (c3 :: r)) by exact El. cc. destruct (c2 =? 45); cc; [|reflexivity].
        change 3 with (zlen [a; b; c2]). rewrite (cell_at l [a; b; c2] c3 r) by exact El. cc. destruct (c3 =? 45); reflexivity.
      - assert (Q' : zlen l < 4) by lia. clear Q. destruct l as [|a [|b [|c2 [|c3 r] ] ] ] eqn:El; try reflexivity. unfold zlen in Q'. cbn [length] in Q'. lia. }
    unfold test_2hyphen. set (b := match l with _ :: _ :: c2 :: c3 :: _ => (c2 =? 0x2d) && (c3 =? 0x2d) | _ => false end) in *.
    replace (match l with _ :: _ :: c2 :: c3 :: _ => _ | _ => _ end) with (if b then Fail IDN2_2HYPHEN else Ok tt) by (unfold b; destruct l as [|? [|? [|? [|? ?] ] ] ]; reflexivity).
    destruct b.
    - exists st. si; [exact C|]. cbn. eapply (runs_ret rt cl). ev.
    - exists st. split; [exact X|]. si; [exact C|]. cbn. apply runs_skip.
  Qed.
  Lemma does_startend : does J J (inner (nth 2 t_items SSkip)) (test_hyphen_startend l).
  Proof.
    intros st X. assert (C : evals rt cl (EAnd (EBin Gt (EVar "llen") (int 0)) (EOr (EBin Eq (EIdx "label" (int 0)) (int 45)) (EBin Eq (EIdx "label" (EBin Sub (EVar "llen") (int 1))) (int 45)))) st
      (I32, b2z (match l with [] => false | c :: _ => (c =? 0x2d) || (last l 0 =? 0x2d) end)) st).
    { destruct X as (pl & ok & i & mp & rc & tr & ->). ev. destruct l as [|c r] eqn:El; [reflexivity|]. rewrite <- El in *. assert (H0 : 0 < zlen l) by (rewrite El, zlen_cons; pose proof (z0 _ r); lia).
      destruct (0 <? zlen l) eqn:Q; [|lia]. cc. change (cell (map Some l) 0) with (cell (map Some l) (zlen (@nil Z))). rewrite (cell_at l [] c r) by exact El. cc. destruct (c =? 45); cc; [reflexivity|].
      assert (NE : l <> []) by (rewrite El; discriminate). pose proof (app_removelast_last 0 NE) as LL. rewrite (u64_id (zlen l - 1)) by (unfold two64 in *; lia).
      replace (zlen l - 1) with (zlen (removelast l)) by (rewrite LL at 2; rewrite zlen_app; change (zlen [last l 0]) with 1; lia). rewrite (cell_at l (removelast l) (last l 0) []) by exact LL. cc. destruct (last l 0 =? 45); reflexivity. }
    unfold test_hyphen_startend. set (b := match l with [] => false | c :: _ => (c =? 0x2d) || (last l 0 =? 0x2d) end) in *.
    replace (match l with [] => Ok tt | _ => _ end) with (if b then Fail IDN2_HYPHEN_STARTEND else Ok tt) by (unfold b; destruct l; reflexivity).
    destruct b.
    - exists st. si; [exact C|]. cbn. eapply (runs_ret rt cl). ev.
    - exists st. split; [exact X|]. si; [exact C|]. cbn. apply runs_skip.
  Qed.
  Lemma does_leading : does J J (inner (nth 3 t_items SSkip)) (test_leading_combining U l).
  Proof.
    intros st X. assert (C : evals rt cl (EAnd (EBin Gt (EVar "llen") (int 0)) (ECall "uc_is_general_category M" [] [EIdx "label" (int 0)])) st (I32, b2z (match l with [] => false | c :: _ => ue_mark U c end)) st).
    { destruct X as (pl & ok & i & mp & rc & tr & ->). ev. destruct l as [|c r] eqn:El; [reflexivity|]. rewrite <- El in *. assert (H0 : 0 < zlen l) by (rewrite El, zlen_cons; pose proof (z0 _ r); lia).
      destruct (0 <? zlen l) eqn:Q; [|lia]. cc. change (cell (map Some l) 0) with (cell (map Some l) (zlen (@nil Z))). rewrite (cell_at l [] c r) by exact El. cc. rewrite lib_mark. cbn. destruct (ue_mark U c); reflexivity. }
    unfold test_leading_combining. set (b := match l with [] => false | c :: _ => ue_mark U c end) in *.
    replace (match l with [] => Ok tt | _ => _ end) with (if b then Fail IDN2_LEADING_COMBINING else Ok tt) by (unfold b; destruct l; reflexivity).
    destruct b.
    - exists st. si; [exact C|]. cbn. eapply (runs_ret rt cl). ev.
    - exists st. split; [exact X|]. si; [exact C|]. cbn. apply runs_skip.
  Qed.
  Lemma does_bidi : does J J (inner (nth 11 t_items SSkip)) (bidi U l).
  Proof.
    intros st (pl & ok & i & mp & rc & tr & ->). destruct call_bidi as (n & F).
    assert (S1 : R (SExp (EAsg "rc" (ECall "_idn2_bidi" ["label"] [EVar "llen"]))) (ts pl ok i mp rc tr) (Norm (ts pl ok i mp (Some (code (bidi U l))) tr))).
    { eapply (runs_exp rt cl). exists n. cbn. rewrite (F n) by lia. reflexivity. }
    assert (S2 : evals rt cl (EBin Ne (EVar "rc") (int 0)) (ts pl ok i mp (Some (code (bidi U l))) tr) (I32, b2z (negb (code (bidi U l) =? 0))) (ts pl ok i mp (Some (code (bidi U l))) tr)) by (ev; destruct (code (bidi U l) =? 0); reflexivity).
    destruct (bidi_safe U l) as [E|E]; rewrite E in *; cbn [code] in *.
    - eexists. split; [|sq; [exact S1|]; si; [exact S2|]; cbn; apply runs_skip]. exists pl, ok, i, mp, (Some 0), tr. reflexivity.
    - eexists. sq; [exact S1|]. si; [exact S2|]. cbn. eapply (runs_ret rt cl). ev.
  Qed.
  Lemma does_tr46 : does J J (inner (nth 12 t_items SSkip)) (let* _ := each test_dot1 l in each (test_status1 what) l).
  Proof.
    intros st X. assert (S1 : exists s1, Jt (Some (Z.land what TEST_TRANSITIONAL)) s1 /\ R (nth 0 t_last SSkip) st (Norm s1)).
    { pose proof (what_eval TEST_TRANSITIONAL st ltac:(discriminate) X) as (n & W1). destruct X as (pl & ok & i & mp & rc & tr & ->). exists (ts pl ok i mp rc (Some (Z.land what TEST_TRANSITIONAL))). split; [exists pl, ok, i, mp, rc; reflexivity|].
      eapply (runs_exp rt cl). exists n. cbn [eval]. cbn [eval] in W1. rewrite W1. reflexivity. }
    destruct S1 as (s1 & Y & S1).
    pose proof (does_seq _ _ _ _ _ _ _ (does_each (Some (Z.land what TEST_TRANSITIONAL)) _ test_dot1 (fun i c E _ => body_dot _ i c E)) (does_each _ _ (test_status1 what) body_status) s1 Y) as K.
    destruct (let* _ := each test_dot1 l in each (test_status1 what) l) as [[]|e| |]; try contradiction.
    - destruct K as (s2 & Y2 & K). exists s2. split; [exact (Jt_J _ _ Y2)|]. sq; [exact S1|exact K].
    - destruct K as (s2 & K). exists s2. sq; [exact S1|exact K].
  Qed.
  Lemma does_flags : forall F G s o, 0 <= F -> 0 <= G -> does J J s o -> does J J (SIf (EBin BAnd (EVar "what") (EBin BOr (int F) (int G))) s SSkip) (Idna.when (has what (Z.lor F G)) o).
  Proof.
    intros F G s o HF HG H st X. pose proof (what_or_eval F G st HF HG X) as E. unfold Idna.when, has. destruct (Z.land what (Z.lor F G) =? 0) eqn:Q; cbn [negb].
    - exists st. split; [exact X|]. si; [exact E|]. cbn [snd]. rewrite Q. apply runs_skip.
    - specialize (H st X). destruct o as [[]|e| |]; try contradiction.
      + destruct H as (s1 & Y & H). exists s1. split; [exact Y|]. si; [exact E|]. cbn [snd]. rewrite Q. exact H.
      + destruct H as (s1 & H). exists s1. si; [exact E|]. cbn [snd]. rewrite Q. exact H.
  Qed.
  Lemma label_test_ends : ends J (f_body c_label_test) (label_test U what l).
  Proof.
    unfold label_test.
    eapply ends_seq; [apply does_flag; [discriminate|exact does_nfc]|].
    eapply ends_seq; [apply does_flag; [discriminate|exact does_2hyphen]|].
    eapply ends_seq; [apply does_flag; [discriminate|exact does_startend]|].
    eapply ends_seq; [apply does_flag; [discriminate|exact does_leading]|].
    eapply ends_seq; [apply does_flag; [discriminate|apply does_any; intros tr; exact (does_each tr _ _ (body_dis tr))]|].
    eapply ends_seq; [apply does_flag; [discriminate|apply does_any; intros tr; exact (does_each tr _ _ (fun i c E _ => body_j tr i c E))]|].
    eapply ends_seq; [apply does_flag; [discriminate|apply does_any; intros tr; exact (does_pos tr _ _ (body_jr tr))]|].
    eapply ends_seq; [apply does_flag; [discriminate|apply does_any; intros tr; exact (does_each tr _ _ (fun i c E _ => body_o tr i c E))]|].
    eapply ends_seq; [apply does_flag; [discriminate|apply does_any; intros tr; exact (does_each tr _ _ (fun i c E _ => body_ow tr i c E))]|].
    eapply ends_seq; [apply does_flag; [discriminate|apply does_any; intros tr; exact (does_pos tr _ _ (body_or tr))]|].
    eapply ends_seq; [apply does_flag; [discriminate|apply does_any; intros tr; exact (does_each tr _ _ (fun i c E _ => body_u tr i c E))]|].
    eapply ends_seq; [apply does_flag; [discriminate|exact does_bidi]|].
    apply ends_last. apply does_flags; [discriminate|discriminate|exact does_tr46].
  Qed.
End Idna.
