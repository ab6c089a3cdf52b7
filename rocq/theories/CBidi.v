(** The text of lib/bidi.c computes what Bidi.v says. *)
From Coq Require Import String.
From Verif Require Import Base PunyBase Uenv Bidi CLang CLogic CLeaf CDecode CEncode CLabel SpecCLabel.
Local Open Scope string_scope.
Local Open Scope list_scope.
Local Open Scope Z_scope.
Arguments calls : simpl never.
Arguments types : simpl never.
Arguments label_program : simpl never.
Arguments bidi_num : simpl nomatch.

Lemma conv_i64 : forall z, 0 <= z < 9223372036854775808 -> conv I64 z = z.
Proof. intros z H. cbn [conv]. rewrite u64_id by (unfold two64; lia). lia. Qed.
Lemma cell_at : forall (l p : list Z) c r, l = p ++ c :: r -> cell (map Some l) (zlen p) = Val c.
Proof. intros l p c r ->. rewrite map_app. cbn [map]. rewrite <- (zlen_map _ _ (@Some Z) p). apply cell_app. Qed.
Lemma z0 : forall A (l : list A), 0 <= zlen l. Proof. intros. unfold zlen. lia. Qed.

Lemma runs_init : forall rt cl, (forall n m f vs a, (n <= m)%nat -> cl n f vs a <> Fuel -> cl m f vs a = cl n f vs a) ->
  forall a b c st st1 o, runs rt cl a st (Norm st1) -> runs rt cl (SSeq b c) st1 o -> runs rt cl (SSeq (SSeq a b) c) st o.
Proof.
  intros rt cl mono a b c st st1 o (n & A & NA) (m & B & NB). exists (max n m). split; [|exact NB]. cbn [exec].
  rewrite (runs_at _ _ mono _ _ _ _ A NA) by lia. cbn [after]. pose proof (runs_at _ _ mono _ _ _ _ B NB (max n m) ltac:(lia)) as C. cbn [exec] in C. exact C.
Qed.


Section Bidi.
  Variable U : uenv.
  Notation P := (label_program U).
  Variable d : nat.
  Notation rt := (types P).
  Notation cl := (calls P d).
  Lemma lmono : forall n m f vs a, (n <= m)%nat -> cl n f vs a <> Fuel -> cl m f vs a = cl n f vs a. Proof. intros; now apply calls_mono. Qed.
  Lemma lib_bidi : forall n t c, cl n "uc_bidi_category" [(t, c)] [] = Val (bidi_num (ue_bidi U c)).
  Proof. intros n t c. destruct d; reflexivity. Qed.
  Lemma ty_bidi : rt "uc_bidi_category" = I32. Proof. reflexivity. Qed.
  Notation R := (runs rt cl).
  Ltac sq := eapply (runs_seq rt cl lmono).
  Ltac sx := eapply (runs_exp rt cl); ev.
  Variable l : list Z.
  Hypothesis L4 : 4 * zlen l < two64.
  Definition ms : list (string * carr) := [("label", (U32, map Some l))].
  Definition ib (n p bc : option Z) : cst := mkst [("llen", (U64, n)); ("p", (U64, p)); ("bc", (I32, bc))] ms.
  Definition i_loop : stmt := Eval cbn in nth 1 (flat (f_body c_isBidi)) SSkip.
  Lemma is_rtl : forall b, (if bidi_eqb b UC_BIDI_R || bidi_eqb b UC_BIDI_AL || bidi_eqb b UC_BIDI_AN then 1 else 0) =
    (if bidi_num b =? 3 then 1 else if bidi_num b =? 4 then 1 else if bidi_num b =? 11 then 1 else 0).
  Proof. intros []; reflexivity. Qed.
  Lemma isBidi_runs : forall r p bc, l = p ++ r -> exists st, R i_loop (ib (Some (zlen r)) (Some (zlen p)) bc) (if is_bidi U r then Ret (I32, 1) st else Norm st).
  Proof.
    induction r as [|c r IH]; intros p bc E; cbn [is_bidi].
    - eexists. eapply (runs_loop_end rt cl lmono); [ev|reflexivity].
    - pose proof (f_equal zlen E) as LE. rewrite zlen_app, zlen_cons in LE. pose proof (z0 _ p). pose proof (z0 _ r). unfold two64 in L4.
      assert (C : evals rt cl (EBin Gt (ECast I64 (EVar "llen")) (int 0)) (ib (Some (zlen (c :: r))) (Some (zlen p)) bc) (I32, 1) (ib (Some (zlen (c :: r))) (Some (zlen p)) bc)).
      { exists O. cbn -[conv]. rewrite zlen_cons. rewrite !conv_i64 by lia. unfold cast. cbn -[conv]. destruct (0 <? 1 + zlen r) eqn:Q; [reflexivity|lia]. }
      set (b := ue_bidi U c). assert (S1 : R (SExp (EAsg "bc" (ECall "uc_bidi_category" [] [EIdx "label" (EPost "p")]))) (ib (Some (zlen (c :: r))) (Some (zlen p)) bc)
        (Norm (ib (Some (zlen (c :: r))) (Some (zlen p + 1)) (Some (bidi_num b))))).
      { eapply (runs_exp rt cl). exists O. cc. rewrite (cell_at l p c r E). cbn. rewrite lib_bidi. cbn. rewrite ty_bidi. cbn. rewrite (u64_id (zlen p + 1)) by (unfold two64; lia). reflexivity. }
      assert (S2 : forall st, evals rt cl (EOr (EOr (EBin Eq (EVar "bc") (int 3)) (EBin Eq (EVar "bc") (int 4))) (EBin Eq (EVar "bc") (int 11))) (ib (Some (zlen (c :: r))) st (Some (bidi_num b)))
        (I32, if bidi_eqb b UC_BIDI_R || bidi_eqb b UC_BIDI_AL || bidi_eqb b UC_BIDI_AN then 1 else 0) (ib (Some (zlen (c :: r))) st (Some (bidi_num b)))).
      { intros st. ev. rewrite is_rtl. destruct (bidi_num b =? 3); cc; [reflexivity|]. destruct (bidi_num b =? 4); cc; [reflexivity|]. destruct (bidi_num b =? 11); cc; reflexivity. }
      destruct (bidi_eqb b UC_BIDI_R || bidi_eqb b UC_BIDI_AL || bidi_eqb b UC_BIDI_AN).
      + eexists. eapply (runs_loop_stop rt cl lmono) with (o := Ret _ _); [exact C|discriminate| |exact I]. sq; [exact S1|]. eapply (runs_if rt cl lmono); [apply S2|]. cbn. eapply (runs_ret rt cl). ev.
      + destruct (IH (p ++ [c]) (Some (bidi_num b)) ltac:(rewrite <- app_assoc; exact E)) as (st & X). exists st. rewrite zlen_app in X. change (zlen [c]) with 1 in X.
        eapply (runs_loop_next rt cl lmono); [exact C|discriminate| | |exact X].
        * sq; [exact S1|]. eapply (runs_if rt cl lmono); [apply S2|]. cbn. apply runs_skip.
        * eapply (runs_exp rt cl). ev. rewrite zlen_cons. replace (1 + zlen r - 1) with (zlen r) by lia. rewrite u64_id by (unfold two64; lia). reflexivity.
  Qed.
  Lemma isBidi_body : exists st, R (f_body c_isBidi) (ib (Some (zlen l)) None None) (Ret (I32, if is_bidi U l then 1 else 0) st).
  Proof.
    destruct (isBidi_runs l [] None eq_refl) as (st & X). destruct (is_bidi U l); eexists.
    - sq; [sx|]. eapply (runs_seq_stop rt cl); [exact X|exact I].
    - sq; [sx|]. sq; [exact X|]. eapply (runs_ret rt cl). ev.
  Qed.

  Definition bs (bc e it : option Z) : cst := mkst [("llen", (U64, Some (zlen l))); ("bc", (I32, bc)); ("endok", (I32, e)); ("it", (U64, it))] ms.
  Definition b_items : list stmt := Eval cbn in flat (f_body c_bidi).
  Definition b_ltr : stmt := Eval cbn in match nth 3 b_items SSkip with SIf _ (SSeq (SSeq _ b) c) _ => SSeq b c | s => s end.
  Definition b_rtl : stmt := Eval cbn in match nth 3 b_items SSkip with SIf _ _ (SIf _ (SSeq (SSeq _ b) c) _) => SSeq b c | s => s end.
  Definition b2z (b : bool) : Z := if b then 1 else 0.
  Definition b_if (s : stmt) : expr := match s with SSeq (SLoop _ _ (SSeq _ (SIf c _ _))) _ => c | _ => EVar "" end.
  Definition b_bad (s : stmt) : expr := match s with SSeq (SLoop _ _ (SSeq _ (SIf _ _ (SSeq (SIf c _ _) _)))) _ => c | _ => EVar "" end.
  Definition neutral (b : bidi_class) : bool := negb (bidi_eqb b UC_BIDI_ES) && negb (bidi_eqb b UC_BIDI_CS) && negb (bidi_eqb b UC_BIDI_ET) && negb (bidi_eqb b UC_BIDI_ON) && negb (bidi_eqb b UC_BIDI_BN).
  Lemma b_set : forall p c r bc e, l = p ++ c :: r -> R (SExp (EAsg "bc" (ECall "uc_bidi_category" [] [EIdx "label" (EVar "it")]))) (bs bc e (Some (zlen p))) (Norm (bs (Some (bidi_num (ue_bidi U c))) e (Some (zlen p)))).
  Proof. intros p c r bc e E. eapply (runs_exp rt cl). exists O. cc. rewrite (cell_at l p c r E). cbn. rewrite lib_bidi. cbn. rewrite ty_bidi. reflexivity. Qed.
  Lemma b_in : forall p c r bc e, l = p ++ c :: r -> evals rt cl (EBin Lt (EVar "it") (EVar "llen")) (bs bc e (Some (zlen p))) (I32, 1) (bs bc e (Some (zlen p))).
  Proof.
    intros p c r bc e E. pose proof (f_equal zlen E) as LE. rewrite zlen_app, zlen_cons in LE. pose proof (z0 _ p). pose proof (z0 _ r). ev. destruct (zlen p <? zlen l) eqn:Q; [reflexivity|lia].
  Qed.
  Lemma b_out : forall bc e, evals rt cl (EBin Lt (EVar "it") (EVar "llen")) (bs bc e (Some (zlen l))) (I32, 0) (bs bc e (Some (zlen l))).
  Proof. intros bc e. ev. rewrite Z.ltb_irrefl. reflexivity. Qed.
  Lemma b_step : forall p c r bc e, l = p ++ c :: r -> R (SExp (EPost "it")) (bs bc e (Some (zlen p))) (Norm (bs bc e (Some (zlen (p ++ [c]))))).
  Proof.
    intros p c r bc e E. pose proof (f_equal zlen E) as LE. rewrite zlen_app, zlen_cons in LE. pose proof (z0 _ p). pose proof (z0 _ r). unfold two64 in L4. rewrite zlen_app. change (zlen [c]) with 1.
    eapply (runs_exp rt cl). ev. rewrite (u64_id (zlen p + 1)) by (unfold two64; lia). reflexivity.
  Qed.
  Lemma b_end : forall bc e it, R (SReturn (ECond (EVar "endok") (int IDN2_OK) (int IDN2_BIDI))) (bs bc (Some (b2z e)) it) (Ret (I32, if e then 0 else IDN2_BIDI) (bs bc (Some (b2z e)) it)).
  Proof. intros bc [] it; eapply (runs_ret rt cl); ev. Qed.
  Lemma b_neutral : forall b e it, evals rt cl (b_bad b_ltr) (bs (Some (bidi_num b)) e it) (I32, b2z (neutral b)) (bs (Some (bidi_num b)) e it).
  Proof. intros [] e it; ev. Qed.
  Lemma b_left : forall b e it, evals rt cl (b_if b_ltr) (bs (Some (bidi_num b)) e it) (I32, b2z (bidi_eqb b UC_BIDI_L || bidi_eqb b UC_BIDI_EN || bidi_eqb b UC_BIDI_NSM)) (bs (Some (bidi_num b)) e it).
  Proof. intros [] e it; ev. Qed.
  Lemma b_right : forall b e it, evals rt cl (b_if b_rtl) (bs (Some (bidi_num b)) e it) (I32, b2z (bidi_eqb b UC_BIDI_R || bidi_eqb b UC_BIDI_AL || bidi_eqb b UC_BIDI_EN || bidi_eqb b UC_BIDI_AN || bidi_eqb b UC_BIDI_NSM)) (bs (Some (bidi_num b)) e it).
  Proof. intros [] e it; ev. Qed.

  Lemma ltr_runs : forall r p bc e, l = p ++ r -> exists st, R b_ltr (bs bc (Some (b2z e)) (Some (zlen p))) (Ret (I32, code (bidi_ltr U r e)) st).
  Proof.
    induction r as [|c r IH]; intros p bc e E; cbn [bidi_ltr].
    - rewrite app_nil_r in E. subst p. eexists. sq; [eapply (runs_loop_end rt cl lmono); [apply b_out|reflexivity]|]. destruct e; apply b_end.
    - pose proof (b_set p c r bc (Some (b2z e)) E) as S1. set (b := ue_bidi U c) in *. fold (neutral b).
      pose proof (b_left b (Some (b2z e)) (Some (zlen p))) as S2. pose proof (b_neutral b (Some (b2z e)) (Some (zlen p))) as S3.
      assert (E' : l = (p ++ [c]) ++ r) by (rewrite <- app_assoc; exact E).
      destruct (bidi_eqb b UC_BIDI_L || bidi_eqb b UC_BIDI_EN || bidi_eqb b UC_BIDI_NSM).
      + destruct (IH (p ++ [c]) (Some (bidi_num b)) true E') as (st & X). exists st. eapply (runs_seq_loop rt cl lmono); [apply (b_in p c r); exact E|discriminate| |apply (b_step p c r); exact E|exact X].
        sq; [exact S1|]. eapply (runs_if rt cl lmono); [exact S2|]. cbn. sx.
      + destruct (neutral b).
        * eexists. eapply (runs_seq_stop rt cl); [|exact I]. eapply (runs_loop_stop rt cl lmono) with (o := Ret _ _); [apply (b_in p c r); exact E|discriminate| |exact I].
          sq; [exact S1|]. eapply (runs_if rt cl lmono); [exact S2|]. cbn. eapply (runs_seq_stop rt cl); [|exact I]. eapply (runs_if rt cl lmono); [exact S3|]. cbn. eapply (runs_ret rt cl). ev.
        * destruct (IH (p ++ [c]) (Some (bidi_num b)) false E') as (st & X). exists st. eapply (runs_seq_loop rt cl lmono); [apply (b_in p c r); exact E|discriminate| |apply (b_step p c r); exact E|exact X].
          sq; [exact S1|]. eapply (runs_if rt cl lmono); [exact S2|]. cbn. sq; [eapply (runs_if rt cl lmono); [exact S3|]; cbn; apply runs_skip|]. sx.
  Qed.
  Lemma rtl_runs : forall r p bc e, l = p ++ r -> exists st, R b_rtl (bs bc (Some (b2z e)) (Some (zlen p))) (Ret (I32, code (bidi_rtl U r e)) st).
  Proof.
    induction r as [|c r IH]; intros p bc e E; cbn [bidi_rtl].
    - rewrite app_nil_r in E. subst p. eexists. sq; [eapply (runs_loop_end rt cl lmono); [apply b_out|reflexivity]|]. destruct e; apply b_end.
    - pose proof (b_set p c r bc (Some (b2z e)) E) as S1. set (b := ue_bidi U c) in *. fold (neutral b).
      pose proof (b_right b (Some (b2z e)) (Some (zlen p))) as S2. pose proof (b_neutral b (Some (b2z e)) (Some (zlen p))) as S3.
      assert (E' : l = (p ++ [c]) ++ r) by (rewrite <- app_assoc; exact E).
      destruct (bidi_eqb b UC_BIDI_R || bidi_eqb b UC_BIDI_AL || bidi_eqb b UC_BIDI_EN || bidi_eqb b UC_BIDI_AN || bidi_eqb b UC_BIDI_NSM).
      + destruct (IH (p ++ [c]) (Some (bidi_num b)) true E') as (st & X). exists st. eapply (runs_seq_loop rt cl lmono); [apply (b_in p c r); exact E|discriminate| |apply (b_step p c r); exact E|exact X].
        sq; [exact S1|]. eapply (runs_if rt cl lmono); [exact S2|]. cbn. sx.
      + destruct (neutral b).
        * eexists. eapply (runs_seq_stop rt cl); [|exact I]. eapply (runs_loop_stop rt cl lmono) with (o := Ret _ _); [apply (b_in p c r); exact E|discriminate| |exact I].
          sq; [exact S1|]. eapply (runs_if rt cl lmono); [exact S2|]. cbn. eapply (runs_seq_stop rt cl); [|exact I]. eapply (runs_if rt cl lmono); [exact S3|]. cbn. eapply (runs_ret rt cl). ev.
        * destruct (IH (p ++ [c]) (Some (bidi_num b)) false E') as (st & X). exists st. eapply (runs_seq_loop rt cl lmono); [apply (b_in p c r); exact E|discriminate| |apply (b_step p c r); exact E|exact X].
          sq; [exact S1|]. eapply (runs_if rt cl lmono); [exact S2|]. cbn. sq; [eapply (runs_if rt cl lmono); [exact S3|]; cbn; apply runs_skip|]. sx.
  Qed.
End Bidi.

Section Top.
  Variable U : uenv.
  Notation P := (label_program U).
  Variable d : nat.
  Notation rt := (types P).
  Notation cl := (calls P (S d)).
  Notation R := (runs rt cl).
  Variable l : list Z.
  Hypothesis L4 : 4 * zlen l < two64.
  Notation mono := (lmono U (S d)).
  Lemma call_isBidi : exists n, forall m, (n <= m)%nat -> cl m "_isBidi" [(U64, zlen l)] [(U32, map Some l)] = Val (if is_bidi U l then 1 else 0).
  Proof.
    destruct (isBidi_body U d l L4) as (st & X). destruct (calls_run P d "_isBidi" c_isBidi [(U64, zlen l)] [(U32, map Some l)] _ st eq_refl eq_refl eq_refl eq_refl X) as (n & F).
    exists n. intros m H. rewrite (F m H). destruct (is_bidi U l); reflexivity.
  Qed.
  Lemma bidi_body : exists st, R (f_body c_bidi) (bs l None None None) (Ret (I32, code (bidi U l)) st).
  Proof.
    unfold bidi. destruct call_isBidi as (n & F).
    assert (S0 : R (SExp (EAsg "endok" (int 1))) (bs l None None None) (Norm (bs l None (Some 1) None))) by (eapply (runs_exp rt cl); ev).
    assert (C : evals rt cl (ENot (ECall "_isBidi" ["label"] [EVar "llen"])) (bs l None (Some 1) None) (I32, if is_bidi U l then 0 else 1) (bs l None (Some 1) None)).
    { exists n. cbn. rewrite (F n) by lia. cbn. destruct (is_bidi U l); reflexivity. }
    destruct (is_bidi U l) eqn:B; cbn [negb].
    2: { eexists. eapply (runs_seq rt cl mono); [exact S0|]. eapply (runs_seq_stop rt cl); [|exact I]. eapply (runs_if rt cl mono); [exact C|]. cbn. eapply (runs_ret rt cl). ev. }
    destruct l as [|c r] eqn:El; [discriminate B|]. rewrite <- El in *.
    assert (S1 : R (SExp (EAsg "bc" (ECall "uc_bidi_category" [] [EIdx "label" (int 0)]))) (bs l None (Some 1) None) (Norm (bs l (Some (bidi_num (ue_bidi U c))) (Some 1) None))).
    { eapply (runs_exp rt cl). exists O. cc. change 0 with (zlen (@nil Z)). rewrite (cell_at l [] c r El). cbn. rewrite lib_bidi. cbn. rewrite ty_bidi. reflexivity. }
    assert (K : forall o, R (nth 3 b_items SSkip) (bs l (Some (bidi_num (ue_bidi U c))) (Some 1) None) o -> R (f_body c_bidi) (bs l None None None) o).
    { intros o X. eapply (runs_seq rt cl mono); [exact S0|]. eapply (runs_seq rt cl mono); [eapply (runs_if rt cl mono); [exact C|]; cbn; apply runs_skip|]. eapply (runs_seq rt cl mono); [exact S1|exact X]. }
    assert (S2 : forall b, R (SExp (EAsg "it" (int 1))) (bs l b (Some 1) None) (Norm (bs l b (Some 1) (Some 1)))) by (intros; eapply (runs_exp rt cl); ev).
    pose proof (ltr_runs U (S d) l L4 r [c] (Some (bidi_num (ue_bidi U c))) true El) as (st1 & X1). pose proof (rtl_runs U (S d) l L4 r [c] (Some (bidi_num (ue_bidi U c))) true El) as (st2 & X2).
    destruct (ue_bidi U c) eqn:EB; try (eexists; apply K; eapply (runs_if rt cl mono); [ev|]; cbn; eapply (runs_if rt cl mono); [ev|]; cbn; eapply (runs_ret rt cl); ev; fail).
    - exists st1. apply K. eapply (runs_if rt cl mono); [ev|]. cbn. eapply (runs_init rt cl mono); [apply S2|exact X1].
    - exists st2. apply K. eapply (runs_if rt cl mono); [ev|]. cbn. eapply (runs_if rt cl mono); [ev|]. cbn. eapply (runs_init rt cl mono); [apply S2|exact X2].
    - exists st2. apply K. eapply (runs_if rt cl mono); [ev|]. cbn. eapply (runs_if rt cl mono); [ev|]. cbn. eapply (runs_init rt cl mono); [apply S2|exact X2].
  Qed.
End Top.
