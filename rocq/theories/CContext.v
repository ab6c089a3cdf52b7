(** The text of lib/context.c computes what Context.v says. *)
From Coq Require Import String.
From Verif Require Import Base PunyBase Uenv DataTypes Tables TablesProofs SpecTables Context CLang CLogic CLeaf CDecode CEncode CLabel SpecCLabel CBidi.
Local Open Scope string_scope.
Local Open Scope list_scope.
Local Open Scope Z_scope.
Arguments calls : simpl never.
Arguments types : simpl never.
Arguments label_program : simpl never.
Arguments joining_num : simpl nomatch.
Arguments cases : simpl never.

Lemma cell_rd : forall l i c, rd l i = Ok c -> cell (map Some l) i = Val c.
Proof.
  intros l i c E. unfold rd in E. destruct (i <? 0) eqn:N; [discriminate|]. destruct (nth_error l (Z.to_nat i)) as [x|] eqn:X; [|discriminate]. injection E as ->.
  pose proof (nth_error_Some l (Z.to_nat i)) as B. rewrite X in B. assert (LT : (Z.to_nat i < length l)%nat) by (apply B; discriminate).
  unfold cell, zlen. rewrite map_length. destruct (0 <=? i) eqn:Q; [|lia]. destruct (i <? Z.of_nat (length l)) eqn:Q2; [|lia]. cbn [andb].
  rewrite (nth_indep _ None (Some 0)) by (rewrite map_length; exact LT). rewrite map_nth. erewrite nth_error_nth by exact X. reflexivity.
Qed.
Lemma rd_in : forall l i, 0 <= i < zlen l -> exists c, rd l i = Ok c.
Proof.
  intros l i H. unfold rd. destruct (i <? 0) eqn:N; [lia|]. destruct (nth_error l (Z.to_nat i)) as [x|] eqn:X; [eauto|]. apply nth_error_None in X. unfold zlen in H. lia.
Qed.
Lemma cases_eval : forall rt cl n x st z cs, get_var x st = Val (U32, z) -> Forall (fun c => 0 <= c < 4294967296) cs -> cs <> [] ->
  eval rt cl n (cases cs x) st = Val ((I32, b2z (existsb (Z.eqb z) cs)), st).
Proof.
  intros rt cl n x st z cs G F N. unfold cases. destruct cs as [|c cs]; [congruence|]. cbn [tl hd existsb]. inversion F as [|a b Fc Fcs]; subst.
  assert (ONE : forall c, 0 <= c < 4294967296 -> eval rt cl n (EBin Eq (EVar x) (int c)) st = Val ((I32, b2z (z =? c)), st)).
  { intros k Hk. cbn [eval]. rewrite G. cbn. unfold cast. cbn. rewrite (u32_id k Hk). destruct (z =? k); reflexivity. }
  revert Fcs. generalize (ONE c Fc). generalize (EBin Eq (EVar x) (int c)). generalize (z =? c). clear Fc F N. clear c. induction cs as [|c cs IH]; intros b e E F; cbn [fold_left existsb].
  - rewrite orb_false_r. exact E.
  - inversion F as [|? ? Fc Fcs]; subst. rewrite orb_assoc. apply IH; [|exact Fcs]. cbn [eval]. rewrite E. cbn [rbind snd]. destruct b; cbn [b2z orb]; [reflexivity|].
    pose proof (ONE c Fc) as K. cbn [eval] in K. cbn. cbn in K. rewrite G in K |- *. cbn in K |- *. rewrite <- K. unfold cast. cbn. destruct (z =? u32 c); reflexivity.
Qed.

Section Context.
  Variable U : uenv.
  Notation P := (label_program U).
  Variable d : nat.
  Notation rt := (types P).
  Notation cl := (calls P d).
  Notation mono := (lmono U d).
  Lemma lib_ccc : forall n t c, cl n "uc_combining_class" [(t, c)] [] = Val (ue_ccc U c). Proof. intros n t c. destruct d; reflexivity. Qed.
  Lemma lib_join : forall n t c, cl n "uc_joining_type" [(t, c)] [] = Val (joining_num (ue_join U c)). Proof. intros n t c. destruct d; reflexivity. Qed.
  Lemma lib_ctxj : forall n t c, cl n "_idn2_contextj_p" [(t, c)] [] = of_bool (contextj_p c). Proof. intros n t c. destruct d; reflexivity. Qed.
  Lemma lib_ctxo : forall n t c, cl n "_idn2_contexto_p" [(t, c)] [] = of_bool (contexto_p c). Proof. intros n t c. destruct d; reflexivity. Qed.
  Notation R := (runs rt cl).
  Ltac sq := eapply (runs_seq rt cl mono).
  Ltac sx := eapply (runs_exp rt cl); ev.
  Ltac si := eapply (runs_if rt cl mono).
  Variable l : list Z.
  Hypothesis L4 : 4 * zlen l < two64.
  Notation ms := (ms l).
  Variable pos : Z.
  Hypothesis HP : 0 <= pos < zlen l.
  Definition cj (cp bf cc jt tmp : option Z) : cst :=
    mkst [("llen", (U64, Some (zlen l))); ("pos", (U64, Some pos)); ("cp", (U32, cp)); ("before_cp", (U32, bf)); ("cc", (I32, cc)); ("jt", (I32, jt)); ("tmp", (U64, tmp))] ms.
  Definition j_items : list stmt := Eval cbn in flat (f_body c_contextj_rule).
  Definition j_zwnj : list stmt := Eval cbn in match nth 3 j_items SSkip with SIf _ a _ => flat a | s => [s] end.
  Definition j_zwj : stmt := Eval cbn in match nth 3 j_items SSkip with SIf _ _ (SIf _ a _) => a | s => s end.
  Definition j_back : stmt := Eval cbn in second (nth 2 j_zwnj SSkip).
  Definition j_fwd : stmt := Eval cbn in second (nth 3 j_zwnj SSkip).

  Lemma j_get : forall cp bf cc jt i c, rd l i = Ok c -> R (SExp (EAsg "jt" (ECall "uc_joining_type" [] [EIdx "label" (EVar "tmp")]))) (cj cp bf cc jt (Some i)) (Norm (cj cp bf cc (Some (joining_num (ue_join U c))) (Some i))).
  Proof. intros cp bf cc jt i c E. eapply (runs_exp rt cl). exists O. cc. rewrite (cell_rd l i c E). cbn. rewrite lib_join. cbn. reflexivity. Qed.
  Lemma j_is : forall j j1 j2 st cp bf cc tmp, st = cj cp bf cc (Some (joining_num j)) tmp ->
    evals rt cl (EOr (EBin Eq (EVar "jt") (int (joining_num j1))) (EBin Eq (EVar "jt") (int (joining_num j2)))) st (I32, b2z (joining_eqb j j1 || joining_eqb j j2)) st.
  Proof. intros [] [] [] st cp bf cc tmp ->; ev. Qed.
  Lemma j_is1 : forall j j1 st cp bf cc tmp, st = cj cp bf cc (Some (joining_num j)) tmp -> evals rt cl (EBin Eq (EVar "jt") (int (joining_num j1))) st (I32, b2z (joining_eqb j j1)) st.
  Proof. intros [] [] st cp bf cc tmp ->; ev. Qed.
  Lemma back_runs : forall k cp bf cc jt, Z.of_nat k < zlen l ->
    match zwnj_back U l k with
    | Ok _ => exists jt' tmp', R j_back (cj cp bf cc jt (Some (Z.of_nat k))) (Norm (cj cp bf cc jt' tmp'))
    | Fail rc => exists st, R j_back (cj cp bf cc jt (Some (Z.of_nat k))) (Ret (I32, rc) st)
    | _ => False
    end.
  Proof.
    assert (C : forall st, evals rt cl (int 1) st (I32, 1) st) by (intros; ev).
    induction k as [|k IH]; intros cp bf cc jt H; cbn [zwnj_back]; destruct (rd_in l (Z.of_nat _) (conj (Nat2Z.is_nonneg _) H)) as (c & E); rewrite E; cbn [bind];
      pose proof (j_get cp bf cc jt _ c E) as S1; set (j := ue_join U c) in *.
    - pose proof (j_is j UC_JOINING_TYPE_L UC_JOINING_TYPE_D _ cp bf cc (Some (Z.of_nat 0)) eq_refl) as S2. destruct (joining_eqb j UC_JOINING_TYPE_L || joining_eqb j UC_JOINING_TYPE_D).
      + eexists. eexists. eapply (runs_loop_stop rt cl mono) with (o := Brk _); [apply C|discriminate| |exact I]. sq; [exact S1|]. eapply (runs_seq_stop rt cl); [|exact I]. si; [exact S2|]. cbn. apply runs_brk.
      + eexists. eapply (runs_loop_stop rt cl mono) with (o := Ret _ _); [apply C|discriminate| |exact I]. sq; [exact S1|]. sq; [si; [exact S2|]; cbn; apply runs_skip|].
        eapply (runs_seq_stop rt cl); [|exact I]. si; [ev|]. cbn. eapply (runs_ret rt cl). ev.
    - remember (Z.of_nat (S k)) as K eqn:HK. pose proof (j_is j UC_JOINING_TYPE_L UC_JOINING_TYPE_D _ cp bf cc (Some K) eq_refl) as S2. destruct (joining_eqb j UC_JOINING_TYPE_L || joining_eqb j UC_JOINING_TYPE_D).
      + eexists. eexists. eapply (runs_loop_stop rt cl mono) with (o := Brk _); [apply C|discriminate| |exact I]. sq; [exact S1|]. eapply (runs_seq_stop rt cl); [|exact I]. si; [exact S2|]. cbn. apply runs_brk.
      + pose proof (j_is1 j UC_JOINING_TYPE_T _ cp bf cc (Some K) eq_refl) as S3.
        assert (Z1 : evals rt cl (EBin Eq (EVar "tmp") (int 0)) (cj cp bf cc (Some (joining_num j)) (Some K)) (I32, 0) (cj cp bf cc (Some (joining_num j)) (Some K))).
        { ev. destruct (K =? 0) eqn:Q; [lia|]. reflexivity. }
        destruct (joining_eqb j UC_JOINING_TYPE_T).
        * specialize (IH cp bf cc (Some (joining_num j)) ltac:(lia)).
          assert (N : forall o, R j_back (cj cp bf cc (Some (joining_num j)) (Some (Z.of_nat k))) o -> R j_back (cj cp bf cc jt (Some K)) o).
          { intros o X. eapply (runs_loop_cont rt cl mono); [apply C|discriminate| | |exact X].
            - sq; [exact S1|]. sq; [si; [exact S2|]; cbn; apply runs_skip|]. sq; [si; [exact Z1|]; cbn; apply runs_skip|]. eapply (runs_seq_stop rt cl); [|exact I]. si; [exact S3|]. cbn. apply runs_cnt.
            - eapply (runs_exp rt cl). ev. replace (K - 1) with (Z.of_nat k) by lia. rewrite (u64_id (Z.of_nat k)) by (unfold two64 in *; lia). reflexivity. }
          destruct (zwnj_back U l k) as [[]|rc| |]; try contradiction.
          -- destruct IH as (jt' & tmp' & X). exists jt', tmp'. apply N. exact X.
          -- destruct IH as (st & X). exists st. apply N. exact X.
        * eexists. eapply (runs_loop_stop rt cl mono) with (o := Ret _ _); [apply C|discriminate| |exact I]. sq; [exact S1|]. sq; [si; [exact S2|]; cbn; apply runs_skip|].
          sq; [si; [exact Z1|]; cbn; apply runs_skip|]. sq; [si; [exact S3|]; cbn; apply runs_skip|]. eapply (runs_ret rt cl). ev.
  Qed.
  Lemma fwd_runs : forall r p cp bf cc jt, l = p ++ r ->
    match zwnj_fwd U r with
    | Ok _ => exists jt' tmp', R j_fwd (cj cp bf cc jt (Some (zlen p))) (Norm (cj cp bf cc jt' tmp'))
    | Fail rc => exists st, R j_fwd (cj cp bf cc jt (Some (zlen p))) (Ret (I32, rc) st)
    | _ => False
    end.
  Proof.
    induction r as [|c r IH]; intros p cp bf cc jt E; cbn [zwnj_fwd].
    - rewrite app_nil_r in E. subst p. eexists. eexists. eapply (runs_loop_end rt cl mono); [ev|]. cc. rewrite Z.ltb_irrefl. reflexivity.
    - pose proof (f_equal zlen E) as LE. rewrite zlen_app, zlen_cons in LE. pose proof (z0 _ p). pose proof (z0 _ r).
      assert (C : evals rt cl (EBin Lt (EVar "tmp") (EVar "llen")) (cj cp bf cc jt (Some (zlen p))) (I32, 1) (cj cp bf cc jt (Some (zlen p)))).
      { ev. destruct (zlen p <? zlen l) eqn:Q; [reflexivity|lia]. }
      assert (RD : rd l (zlen p) = Ok c). { unfold rd. destruct (zlen p <? 0) eqn:N; [lia|]. rewrite E. unfold zlen. rewrite Nat2Z.id, nth_error_app2, Nat.sub_diag by lia. reflexivity. }
      pose proof (j_get cp bf cc jt _ c RD) as S1. set (j := ue_join U c) in *. pose proof (j_is j UC_JOINING_TYPE_R UC_JOINING_TYPE_D _ cp bf cc (Some (zlen p)) eq_refl) as S2.
      destruct (joining_eqb j UC_JOINING_TYPE_R || joining_eqb j UC_JOINING_TYPE_D).
      + eexists. eexists. eapply (runs_loop_stop rt cl mono) with (o := Brk _); [apply C|discriminate| |exact I]. sq; [exact S1|]. eapply (runs_seq_stop rt cl); [|exact I]. si; [exact S2|]. cbn. apply runs_brk.
      + assert (Z1 : evals rt cl (EBin Eq (EVar "tmp") (EBin Sub (EVar "llen") (int 1))) (cj cp bf cc (Some (joining_num j)) (Some (zlen p))) (I32, b2z (zlen r =? 0)) (cj cp bf cc (Some (joining_num j)) (Some (zlen p)))).
        { ev. rewrite (u64_id (zlen l - 1)) by (unfold two64 in *; lia). destruct (zlen p =? zlen l - 1) eqn:Q; destruct (zlen r =? 0) eqn:Q2; try lia; reflexivity. }
        pose proof (j_is1 j UC_JOINING_TYPE_T _ cp bf cc (Some (zlen p)) eq_refl) as S3.
        assert (N : forall o, (zlen r =? 0) = false -> joining_eqb j UC_JOINING_TYPE_T = true -> R j_fwd (cj cp bf cc (Some (joining_num j)) (Some (zlen (p ++ [c])))) o -> R j_fwd (cj cp bf cc jt (Some (zlen p))) o).
        { intros o Q T X. rewrite Q in Z1. rewrite T in S3. eapply (runs_loop_cont rt cl mono); [apply C|discriminate| | |exact X].
            - sq; [exact S1|]. sq; [si; [exact S2|]; cbn; apply runs_skip|]. sq; [si; [exact Z1|]; cbn; apply runs_skip|]. eapply (runs_seq_stop rt cl); [|exact I]. si; [exact S3|]. cbn. apply runs_cnt.
            - eapply (runs_exp rt cl). ev. rewrite zlen_app. change (zlen [c]) with 1. rewrite (u64_id (zlen p + 1)) by (unfold two64 in *; lia). reflexivity. }
        destruct r as [|c2 r].
        * eexists. eapply (runs_loop_stop rt cl mono) with (o := Ret _ _); [apply C|discriminate| |exact I]. sq; [exact S1|]. sq; [si; [exact S2|]; cbn; apply runs_skip|].
          eapply (runs_seq_stop rt cl); [|exact I]. si; [exact Z1|]. cbn. eapply (runs_ret rt cl). ev.
        * assert (Q : (zlen (c2 :: r) =? 0) = false) by (rewrite zlen_cons; pose proof (z0 _ r); lia).
          destruct (joining_eqb j UC_JOINING_TYPE_T) eqn:T.
          -- specialize (IH (p ++ [c]) cp bf cc (Some (joining_num j)) ltac:(rewrite <- app_assoc; exact E)). destruct (zwnj_fwd U (c2 :: r)) as [[]|rc| |]; try contradiction.
             ++ destruct IH as (jt' & tmp' & X). exists jt', tmp'. apply N; auto.
             ++ destruct IH as (st & X). exists st. apply N; auto.
          -- rewrite Q in Z1. eexists. eapply (runs_loop_stop rt cl mono) with (o := Ret _ _); [apply C|discriminate| |exact I]. sq; [exact S1|]. sq; [si; [exact S2|]; cbn; apply runs_skip|].
             sq; [si; [exact Z1|]; cbn; apply runs_skip|]. sq; [si; [exact S3|]; cbn; apply runs_skip|]. eapply (runs_ret rt cl). ev.
  Qed.

  (** The two branches of the switch begin with the same look at what stands before. *)
  Definition j_virama : stmt := Eval cbn in nth 0 j_zwnj SSkip.
  Lemma virama_runs : forall cp, match virama_before U l pos with
    | Ok true => exists st, R j_virama (cj (Some cp) None None None None) (Ret (I32, 0) st)
    | Ok false => exists bf cc, R j_virama (cj (Some cp) None None None None) (Norm (cj (Some cp) bf cc None None))
    | _ => False
    end.
  Proof.
    intros cp. unfold virama_before. assert (C : evals rt cl (EBin Gt (EVar "pos") (int 0)) (cj (Some cp) None None None None) (I32, b2z (0 <? pos)) (cj (Some cp) None None None None)) by (ev; destruct (0 <? pos); reflexivity).
    destruct (0 <? pos) eqn:P0.
    - destruct (rd_in l (pos - 1) ltac:(lia)) as (b & E). rewrite E. cbn [bind].
      assert (S1 : R (SExp (EAsg "before_cp" (EIdx "label" (EBin Sub (EVar "pos") (int 1))))) (cj (Some cp) None None None None) (Norm (cj (Some cp) (Some b) None None None))).
      { sx. rewrite (u64_id (pos - 1)) by (unfold two64 in *; lia). rewrite (cell_rd _ _ _ E). reflexivity. }
      assert (S2 : R (SExp (EAsg "cc" (ECall "uc_combining_class" [] [EVar "before_cp"]))) (cj (Some cp) (Some b) None None None) (Norm (cj (Some cp) (Some b) (Some (ue_ccc U b)) None None))).
      { sx. rewrite lib_ccc. reflexivity. }
      assert (S3 : evals rt cl (EBin Eq (EVar "cc") (int 9)) (cj (Some cp) (Some b) (Some (ue_ccc U b)) None None) (I32, b2z (ue_ccc U b =? UC_CCC_VR)) (cj (Some cp) (Some b) (Some (ue_ccc U b)) None None)) by (ev; change UC_CCC_VR with 9; destruct (ue_ccc U b =? 9); reflexivity).
      destruct (ue_ccc U b =? UC_CCC_VR).
      + eexists. si; [exact C|]. cbn. sq; [exact S1|]. sq; [exact S2|]. si; [exact S3|]. cbn. eapply (runs_ret rt cl). ev.
      + eexists. eexists. si; [exact C|]. cbn. sq; [exact S1|]. sq; [exact S2|]. si; [exact S3|]. cbn. apply runs_skip.
    - eexists. eexists. si; [exact C|]. cbn. apply runs_skip.
  Qed.
  Lemma contextj_body : exists st, R (f_body c_contextj_rule) (cj None None None None None) (Ret (I32, code (contextj_rule U l pos)) st).
  Proof.
    unfold contextj_rule. destruct (zlen l =? 0) eqn:L0; [lia|]. destruct (rd_in l pos HP) as (cp & E). rewrite E. cbn [bind]. unfold contextj_p. rewrite property_spec. cbn [bind].
    assert (K0 : forall o, R (second (f_body c_contextj_rule)) (cj None None None None None) o -> R (f_body c_contextj_rule) (cj None None None None None) o).
    { intros o X. eapply (runs_seq rt cl mono); [|exact X]. si; [ev|]. cc. rewrite L0. cbn. apply runs_skip. }
    assert (S1 : R (SExp (EAsg "cp" (EIdx "label" (EVar "pos")))) (cj None None None None None) (Norm (cj (Some cp) None None None None))) by (sx; rewrite (cell_rd _ _ _ E); reflexivity).
    assert (S2 : evals rt cl (ENot (ECall "_idn2_contextj_p" [] [EVar "cp"])) (cj (Some cp) None None None None) (I32, b2z (negb (prop_eqb (csv_property cp) CONTEXTJ))) (cj (Some cp) None None None None)).
    { ev. rewrite lib_ctxj. unfold contextj_p. rewrite property_spec. cbn. destruct (prop_eqb (csv_property cp) CONTEXTJ); reflexivity. }
    destruct (prop_eqb (csv_property cp) CONTEXTJ); cbn [negb].
    2: { eexists. apply K0. sq; [exact S1|]. eapply (runs_seq_stop rt cl); [|exact I]. si; [exact S2|]. cbn. eapply (runs_ret rt cl). ev. }
    assert (K1 : forall o, R (nth 3 j_items SSkip) (cj (Some cp) None None None None) o -> R (f_body c_contextj_rule) (cj None None None None None) o).
    { intros o X. apply K0. sq; [exact S1|]. sq; [si; [exact S2|]; cbn; apply runs_skip|]. exact X. }
    assert (C1 : evals rt cl (EBin Eq (EVar "cp") (int 8204)) (cj (Some cp) None None None None) (I32, b2z (cp =? 0x200C)) (cj (Some cp) None None None None)) by (ev; destruct (cp =? 8204); reflexivity).
    assert (C2 : evals rt cl (EBin Eq (EVar "cp") (int 8205)) (cj (Some cp) None None None None) (I32, b2z (cp =? 0x200D)) (cj (Some cp) None None None None)) by (ev; destruct (cp =? 8205); reflexivity).
    pose proof (virama_runs cp) as V. destruct (cp =? 0x200C).
    - destruct (virama_before U l pos) as [[]|rc| |]; try contradiction; cbn [bind].
      { destruct V as (st & V). exists st. apply K1. si; [exact C1|]. cbn. eapply (runs_seq_stop rt cl); [exact V|exact I]. }
      destruct V as (bf & cc & V).
      assert (C3 : evals rt cl (EOr (EBin Eq (EVar "pos") (int 0)) (EBin Eq (EVar "pos") (EBin Sub (EVar "llen") (int 1)))) (cj (Some cp) bf cc None None) (I32, b2z ((pos =? 0) || (pos =? zlen l - 1))) (cj (Some cp) bf cc None None)).
      { ev. destruct (pos =? 0); cc; [reflexivity|]. rewrite (u64_id (zlen l - 1)) by (unfold two64 in *; lia). destruct (pos =? zlen l - 1); cc; reflexivity. }
      destruct ((pos =? 0) || (pos =? zlen l - 1)) eqn:PE.
      { eexists. apply K1. si; [exact C1|]. cbn. sq; [exact V|]. eapply (runs_seq_stop rt cl); [|exact I]. si; [exact C3|]. cbn. eapply (runs_ret rt cl). ev. }
      assert (S4 : R (SExp (EAsg "tmp" (EBin Sub (EVar "pos") (int 1)))) (cj (Some cp) bf cc None None) (Norm (cj (Some cp) bf cc None (Some (Z.of_nat (Z.to_nat (pos - 1))))))).
      { sx. rewrite Z2Nat.id by lia. rewrite (u64_id (pos - 1)) by (unfold two64 in *; lia). reflexivity. }
      pose proof (back_runs (Z.to_nat (pos - 1)) (Some cp) bf cc None ltac:(lia)) as B. destruct (zwnj_back U l (Z.to_nat (pos - 1))) as [[]|rc| |]; try contradiction; cbn [bind].
      2: { destruct B as (st & B). exists st. apply K1. si; [exact C1|]. cbn. sq; [exact V|]. sq; [si; [exact C3|]; cbn; apply runs_skip|]. eapply (runs_seq_stop rt cl); [|exact I]. sq; [exact S4|exact B]. }
      destruct B as (jt & tmp & B).
      assert (LP : zlen (firstn (Z.to_nat (pos + 1)) l) = pos + 1) by (revert HP PE; clear; intros HP PE; unfold zlen in *; rewrite firstn_length; lia).
      assert (S5 : R (SExp (EAsg "tmp" (EBin Add (EVar "pos") (int 1)))) (cj (Some cp) bf cc jt tmp) (Norm (cj (Some cp) bf cc jt (Some (zlen (firstn (Z.to_nat (pos + 1)) l)))))).
      { sx. rewrite LP, (u64_id (pos + 1)) by (unfold two64 in *; lia). reflexivity. }
      pose proof (fwd_runs (skipn (Z.to_nat (pos + 1)) l) (firstn (Z.to_nat (pos + 1)) l) (Some cp) bf cc jt (eq_sym (firstn_skipn _ l))) as F.
      destruct (zwnj_fwd U (skipn (Z.to_nat (pos + 1)) l)) as [[]|rc| |]; try contradiction; cbn [code].
      + destruct F as (jt' & tmp' & F). eexists. apply K1. si; [exact C1|]. cbn. sq; [exact V|]. sq; [si; [exact C3|]; cbn; apply runs_skip|]. sq; [sq; [exact S4|exact B]|]. sq; [sq; [exact S5|exact F]|]. eapply (runs_ret rt cl). ev.
      + destruct F as (st & F). exists st. apply K1. si; [exact C1|]. cbn. sq; [exact V|]. sq; [si; [exact C3|]; cbn; apply runs_skip|]. sq; [sq; [exact S4|exact B]|]. eapply (runs_seq_stop rt cl); [|exact I]. sq; [exact S5|exact F].
    - destruct (cp =? 0x200D).
      + destruct (virama_before U l pos) as [[]|rc| |]; try contradiction; cbn [bind].
        * destruct V as (st & V). exists st. apply K1. si; [exact C1|]. cbn. si; [exact C2|]. cbn. eapply (runs_seq_stop rt cl); [exact V|exact I].
        * destruct V as (bf & cc & V). eexists. apply K1. si; [exact C1|]. cbn. si; [exact C2|]. cbn. sq; [exact V|]. eapply (runs_ret rt cl). ev.
      + eexists. apply K1. si; [exact C1|]. cbn. si; [exact C2|]. cbn. eapply (runs_ret rt cl). ev.
  Qed.

  (** _idn2_contexto_rule *)
  Definition co (cp i ok : option Z) : cst :=
    mkst [("llen", (U64, Some (zlen l))); ("pos", (U64, Some pos)); ("cp", (U32, cp)); ("i", (U64, i)); ("script_ok", (U8, ok))] ms.
  Definition o_items : list stmt := Eval cbn in flat (f_body c_contexto_rule).
  Fixpoint chain (s : stmt) : list stmt := match s with SIf _ a b => a :: chain b | s => [s] end.
  Definition o_branches : list stmt := Eval cbn in chain (nth 2 o_items SSkip).
  Definition o_digits : stmt := Eval cbn in match nth 3 o_branches SSkip with SSeq (SSeq _ a) b => SSeq a b | s => s end.
  Definition o_ext_digits : stmt := Eval cbn in match nth 4 o_branches SSkip with SSeq (SSeq _ a) b => SSeq a b | s => s end.
  Definition o_kana : stmt := Eval cbn in match nth 5 o_branches SSkip with SSeq _ (SSeq (SSeq _ a) _) => a | s => s end.

  Lemma o_step : forall p c r cp ok, l = p ++ c :: r -> R (SExp (EPost "i")) (co cp (Some (zlen p)) ok) (Norm (co cp (Some (zlen (p ++ [c]))) ok)).
  Proof.
    intros p c r cp ok E. pose proof (f_equal zlen E) as LE. rewrite zlen_app, zlen_cons in LE. pose proof (z0 _ p). pose proof (z0 _ r). sx. rewrite zlen_app. change (zlen [c]) with 1.
    rewrite (u64_id (zlen p + 1)) by (unfold two64 in *; lia). reflexivity.
  Qed.
  Lemma o_in : forall p c r cp ok, l = p ++ c :: r -> evals rt cl (EBin Lt (EVar "i") (EVar "llen")) (co cp (Some (zlen p)) ok) (I32, 1) (co cp (Some (zlen p)) ok).
  Proof.
    intros p c r cp ok E. pose proof (f_equal zlen E) as LE. rewrite zlen_app, zlen_cons in LE. pose proof (z0 _ p). pose proof (z0 _ r). ev. destruct (zlen p <? zlen l) eqn:Q; [reflexivity|lia].
  Qed.
  Lemma o_out : forall cp ok, evals rt cl (EBin Lt (EVar "i") (EVar "llen")) (co cp (Some (zlen l)) ok) (I32, 0) (co cp (Some (zlen l)) ok).
  Proof. intros cp ok. ev. rewrite Z.ltb_irrefl. reflexivity. Qed.
  Lemma o_range : forall p c r cp lo hi, l = p ++ c :: r -> 0 <= lo < 4294967296 -> 0 <= hi < 4294967296 ->
    evals rt cl (EAnd (EBin Ge (EIdx "label" (EVar "i")) (int lo)) (EBin Le (EIdx "label" (EVar "i")) (int hi))) (co cp (Some (zlen p)) None) (I32, b2z ((lo <=? c) && (c <=? hi))) (co cp (Some (zlen p)) None).
  Proof.
    intros p c r cp lo hi E Hl Hh. ev. rewrite (cell_at l p c r E). cc. rewrite (u32_id lo) by lia. destruct (lo <=? c); cc; [|reflexivity]. rewrite (cell_at l p c r E). cc. rewrite (u32_id hi) by lia. destruct (c <=? hi); reflexivity.
  Qed.
  Lemma digits_runs : forall r p cp, l = p ++ r -> exists st, R o_digits (co cp (Some (zlen p)) None) (Ret (I32, if existsb is_ext_arabic_indic r then IDN2_CONTEXTO else 0) st).
  Proof.
    induction r as [|c r IH]; intros p cp E; cbn [existsb].
    - rewrite app_nil_r in E. subst p. eexists. sq; [eapply (runs_loop_end rt cl mono); [apply o_out|reflexivity]|]. eapply (runs_ret rt cl). ev.
    - pose proof (o_range p c r cp 1776 1785 E ltac:(lia) ltac:(lia)) as C. change (b2z _) with (b2z (is_ext_arabic_indic c)) in C. destruct (is_ext_arabic_indic c); cbn [orb].
      + eexists. eapply (runs_seq_stop rt cl); [|exact I]. eapply (runs_loop_stop rt cl mono) with (o := Ret _ _); [apply (o_in p c r); exact E|discriminate| |exact I]. si; [exact C|]. cbn. eapply (runs_ret rt cl). ev.
      + destruct (IH (p ++ [c]) cp ltac:(rewrite <- app_assoc; exact E)) as (st & X). exists st. eapply (runs_seq_loop rt cl mono); [apply (o_in p c r); exact E|discriminate| |apply (o_step p c r); exact E|exact X]. si; [exact C|]. cbn. apply runs_skip.
  Qed.
  Lemma ext_digits_runs : forall r p cp, l = p ++ r -> exists st, R o_ext_digits (co cp (Some (zlen p)) None) (Ret (I32, if existsb is_arabic_indic r then IDN2_CONTEXTO else 0) st).
  Proof.
    induction r as [|c r IH]; intros p cp E; cbn [existsb].
    - rewrite app_nil_r in E. subst p. eexists. sq; [eapply (runs_loop_end rt cl mono); [apply o_out|reflexivity]|]. eapply (runs_ret rt cl). ev.
    - pose proof (o_range p c r cp 1632 1641 E ltac:(lia) ltac:(lia)) as C. change (b2z _) with (b2z (is_arabic_indic c)) in C. destruct (is_arabic_indic c); cbn [orb].
      + eexists. eapply (runs_seq_stop rt cl); [|exact I]. eapply (runs_loop_stop rt cl mono) with (o := Ret _ _); [apply (o_in p c r); exact E|discriminate| |exact I]. si; [exact C|]. cbn. eapply (runs_ret rt cl). ev.
      + destruct (IH (p ++ [c]) cp ltac:(rewrite <- app_assoc; exact E)) as (st & X). exists st. eapply (runs_seq_loop rt cl mono); [apply (o_in p c r); exact E|discriminate| |apply (o_step p c r); exact E|exact X]. si; [exact C|]. cbn. apply runs_skip.
  Qed.
  Lemma lib_script : forall s, In s ["Greek"; "Hebrew"; "Hiragana"; "Katakana"; "Han"] -> forall n t c, cl n (String.append "strcmp script " s) [(t, c)] [] = Val (if String.eqb (script_name U c) s then 0 else 1).
  Proof. intros s I n t c. cbn in I. repeat (destruct I as [<-|I]; [destruct d; reflexivity|]). contradiction. Qed.
  Definition kana (c : Z) : bool := String.eqb (script_name U c) "Hiragana" || String.eqb (script_name U c) "Katakana" || String.eqb (script_name U c) "Han".
  Definition o_kana_if : expr := Eval cbn in match o_kana with SLoop _ _ (SIf c _ _) => c | _ => EVar "" end.
  Lemma kana_eval : forall p c r cp ok, l = p ++ c :: r -> evals rt cl o_kana_if (co cp (Some (zlen p)) ok) (I32, b2z (kana c)) (co cp (Some (zlen p)) ok).
  Proof.
    intros p c r cp ok E. unfold kana. ev. rewrite (cell_at l p c r E). cbn.
    pose proof (lib_script "Hiragana" ltac:(cbn; tauto)) as F1. pose proof (lib_script "Katakana" ltac:(cbn; tauto)) as F2. pose proof (lib_script "Han" ltac:(cbn; tauto)) as F3. cbn [String.append] in F1, F2, F3.
    change (rt "strcmp script Hiragana") with I32. rewrite F1. destruct (String.eqb (script_name U c) "Hiragana"); cc; [reflexivity|]. try rewrite (cell_at l p c r E); cc.
    change (rt "strcmp script Katakana") with I32. rewrite F2. destruct (String.eqb (script_name U c) "Katakana"); cc; [reflexivity|]. try rewrite (cell_at l p c r E); cc.
    change (rt "strcmp script Han") with I32. rewrite F3. destruct (String.eqb (script_name U c) "Han"); cc; reflexivity.
  Qed.
  Lemma kana_runs : forall r p cp, l = p ++ r -> exists i, R o_kana (co cp (Some (zlen p)) (Some 0)) (Norm (co cp i (Some (b2z (existsb kana r))))).
  Proof.
    induction r as [|c r IH]; intros p cp E; cbn [existsb].
    - rewrite app_nil_r in E. subst p. eexists. eapply (runs_loop_end rt cl mono); [ev|]. cc. rewrite Z.ltb_irrefl. reflexivity.
    - pose proof (kana_eval p c r cp (Some 0) E) as C.
      assert (G : evals rt cl (EAnd (ENot (EVar "script_ok")) (EBin Lt (EVar "i") (EVar "llen"))) (co cp (Some (zlen p)) (Some 0)) (I32, 1) (co cp (Some (zlen p)) (Some 0))).
      { pose proof (f_equal zlen E) as LE. rewrite zlen_app, zlen_cons in LE. pose proof (z0 _ p). pose proof (z0 _ r). ev. destruct (zlen p <? zlen l) eqn:Q; [reflexivity|lia]. }
      destruct (kana c); cbn [orb].
      + eexists. eapply (runs_loop_next rt cl mono); [exact G|discriminate| |apply (o_step p c r); exact E|].
        * si; [exact C|]. cbn. sx.
        * eapply (runs_loop_end rt cl mono); [ev|]. reflexivity.
      + destruct (IH (p ++ [c]) cp ltac:(rewrite <- app_assoc; exact E)) as (i & X). exists i. eapply (runs_loop_next rt cl mono); [exact G|discriminate| |apply (o_step p c r); exact E|exact X]. si; [exact C|]. cbn. apply runs_skip.
  Qed.

  Lemma contexto_body : exists st, R (f_body c_contexto_rule) (co None None None) (Ret (I32, code (contexto_rule U l pos)) st).
  Proof.
    unfold contexto_rule. destruct (rd_in l pos HP) as (cp & E). rewrite E. cbn [bind]. unfold contexto_p. rewrite property_spec. cbn [bind].
    assert (S1 : R (SExp (EAsg "cp" (EIdx "label" (EVar "pos")))) (co None None None) (Norm (co (Some cp) None None))) by (sx; rewrite (cell_rd _ _ _ E); reflexivity).
    assert (S2 : evals rt cl (ENot (ECall "_idn2_contexto_p" [] [EVar "cp"])) (co (Some cp) None None) (I32, b2z (negb (prop_eqb (csv_property cp) CONTEXTO))) (co (Some cp) None None)).
    { ev. rewrite lib_ctxo. unfold contexto_p. rewrite property_spec. cbn. destruct (prop_eqb (csv_property cp) CONTEXTO); reflexivity. }
    destruct (prop_eqb (csv_property cp) CONTEXTO); cbn [negb].
    2: { eexists. sq; [exact S1|]. eapply (runs_seq_stop rt cl); [|exact I]. si; [exact S2|]. cbn. eapply (runs_ret rt cl). ev. }
    assert (K1 : forall o, R (nth 2 o_items SSkip) (co (Some cp) None None) o -> R (f_body c_contexto_rule) (co None None None) o).
    { intros o X. sq; [exact S1|]. sq; [si; [exact S2|]; cbn; apply runs_skip|]. exact X. }
    assert (C0 : forall k, 0 <= k < 4294967296 -> evals rt cl (EBin Eq (EVar "cp") (int k)) (co (Some cp) None None) (I32, b2z (cp =? k)) (co (Some cp) None None)).
    { intros k Hk. exists O. cbn. unfold cast. cbn. rewrite (u32_id k Hk). destruct (cp =? k); reflexivity. }
    assert (CC : forall ks, Forall (fun c => 0 <= c < 4294967296) ks -> ks <> [] -> evals rt cl (cases ks "cp") (co (Some cp) None None) (I32, b2z (existsb (Z.eqb cp) ks)) (co (Some cp) None None)).
    { intros ks F N. exists O. apply cases_eval; [reflexivity|exact F|exact N]. }
    pose proof (C0 0xB7 ltac:(lia)) as D1. pose proof (C0 0x375 ltac:(lia)) as D2. pose proof (CC [0x5F3; 0x5F4] ltac:(repeat constructor; lia) ltac:(discriminate)) as D3.
    pose proof (CC arabic_indic ltac:(repeat constructor; lia) ltac:(discriminate)) as D4. pose proof (CC ext_arabic_indic ltac:(repeat constructor; lia) ltac:(discriminate)) as D5.
    pose proof (C0 0x30FB ltac:(lia)) as D6. clear C0 CC.
    replace (existsb (Z.eqb cp) [1523; 1524]) with ((cp =? 0x5F3) || (cp =? 0x5F4)) in D3 by (cbn [existsb]; rewrite orb_false_r; reflexivity).
    replace (existsb (Z.eqb cp) arabic_indic) with (is_arabic_indic cp) in D4 by (unfold arabic_indic, is_arabic_indic; cbn [existsb]; destruct (_ && _) eqn:Q; symmetry; lia).
    replace (existsb (Z.eqb cp) ext_arabic_indic) with (is_ext_arabic_indic cp) in D5 by (unfold ext_arabic_indic, is_ext_arabic_indic; cbn [existsb]; destruct (_ && _) eqn:Q; symmetry; lia).
    pose proof (lib_script "Greek" ltac:(cbn; tauto)) as F1. pose proof (lib_script "Hebrew" ltac:(cbn; tauto)) as F2. cbn [String.append] in F1, F2.
    assert (PE : evals rt cl (EOr (EBin Eq (EVar "pos") (int 0)) (EBin Eq (EVar "pos") (EBin Sub (EVar "llen") (int 1)))) (co (Some cp) None None) (I32, b2z ((pos =? 0) || (pos =? zlen l - 1))) (co (Some cp) None None)).
    { ev. destruct (pos =? 0); cc; [reflexivity|]. rewrite (u64_id (zlen l - 1)) by (unfold two64 in *; lia). destruct (pos =? zlen l - 1); cc; reflexivity. }
    assert (PL : evals rt cl (EBin Eq (EVar "pos") (EBin Sub (EVar "llen") (int 1))) (co (Some cp) None None) (I32, b2z (pos =? zlen l - 1)) (co (Some cp) None None)).
    { ev. rewrite (u64_id (zlen l - 1)) by (unfold two64 in *; lia). destruct (pos =? zlen l - 1); cc; reflexivity. }
    assert (PF : evals rt cl (EBin Eq (EVar "pos") (int 0)) (co (Some cp) None None) (I32, b2z (pos =? 0)) (co (Some cp) None None)) by (ev; destruct (pos =? 0); reflexivity).
    destruct (cp =? 0xB7).
    { assert (L3 : evals rt cl (EBin Lt (EVar "llen") (int 3)) (co (Some cp) None None) (I32, b2z (zlen l <? 3)) (co (Some cp) None None)) by (ev; destruct (zlen l <? 3); reflexivity).
      destruct (zlen l <? 3). { eexists. apply K1. si; [exact D1|]. cbn. eapply (runs_seq_stop rt cl); [|exact I]. si; [exact L3|]. cbn. eapply (runs_ret rt cl). ev. }
      destruct ((pos =? 0) || (pos =? zlen l - 1)) eqn:Q. { eexists. apply K1. si; [exact D1|]. cbn. sq; [si; [exact L3|]; cbn; apply runs_skip|]. eapply (runs_seq_stop rt cl); [|exact I]. si; [exact PE|]. cbn. eapply (runs_ret rt cl). ev. }
      destruct (rd_in l (pos - 1) ltac:(lia)) as (b & Eb). destruct (rd_in l (pos + 1) ltac:(lia)) as (a & Ea). rewrite Eb, Ea. cbn [bind].
      assert (CL : evals rt cl (EAnd (EBin Eq (EIdx "label" (EBin Sub (EVar "pos") (int 1))) (int 108)) (EBin Eq (EIdx "label" (EBin Add (EVar "pos") (int 1))) (int 108))) (co (Some cp) None None) (I32, b2z ((b =? 0x6C) && (a =? 0x6C))) (co (Some cp) None None)).
      { ev. rewrite (u64_id (pos - 1)) by (unfold two64 in *; lia). rewrite (cell_rd _ _ _ Eb). cc. destruct (b =? 108); cc; [|reflexivity]. rewrite (u64_id (pos + 1)) by (unfold two64 in *; lia). rewrite (cell_rd _ _ _ Ea). cc. destruct (a =? 108); reflexivity. }
      destruct ((b =? 0x6C) && (a =? 0x6C)); eexists; apply K1; (si; [exact D1|]); cbn; (sq; [si; [exact L3|]; cbn; apply runs_skip|]); (sq; [si; [exact PE|]; cbn; apply runs_skip|]).
      - eapply (runs_seq_stop rt cl); [|exact I]. si; [exact CL|]. cbn. eapply (runs_ret rt cl). ev.
      - sq; [si; [exact CL|]; cbn; apply runs_skip|]. eapply (runs_ret rt cl). ev. }
    destruct (cp =? 0x375).
    { destruct (pos =? zlen l - 1) eqn:Q. { eexists. apply K1. si; [exact D1|]. cbn. si; [exact D2|]. cbn. eapply (runs_seq_stop rt cl); [|exact I]. si; [exact PL|]. cbn. eapply (runs_ret rt cl). ev. }
      destruct (rd_in l (pos + 1) ltac:(lia)) as (a & Ea). rewrite Ea. cbn [bind].
      assert (CL : evals rt cl (EBin Eq (script_cmp "Greek" (EIdx "label" (EBin Add (EVar "pos") (int 1)))) (int 0)) (co (Some cp) None None) (I32, b2z (String.eqb (script_name U a) "Greek")) (co (Some cp) None None)).
      { ev. rewrite (u64_id (pos + 1)) by (unfold two64 in *; lia). rewrite (cell_rd _ _ _ Ea). cc. rewrite F1. destruct (String.eqb (script_name U a) "Greek"); reflexivity. }
      destruct (String.eqb (script_name U a) "Greek"); eexists; apply K1; (si; [exact D1|]); cbn; (si; [exact D2|]); cbn; (sq; [si; [exact PL|]; cbn; apply runs_skip|]).
      - eapply (runs_seq_stop rt cl); [|exact I]. si; [exact CL|]. cbn. eapply (runs_ret rt cl). ev.
      - sq; [si; [exact CL|]; cbn; apply runs_skip|]. eapply (runs_ret rt cl). ev. }
    destruct ((cp =? 0x5F3) || (cp =? 0x5F4)).
    { destruct (pos =? 0) eqn:Q. { eexists. apply K1. si; [exact D1|]. cbn. si; [exact D2|]. cbn. si; [exact D3|]. cbn. eapply (runs_seq_stop rt cl); [|exact I]. si; [exact PF|]. cbn. eapply (runs_ret rt cl). ev. }
      destruct (rd_in l (pos - 1) ltac:(lia)) as (a & Ea). rewrite Ea. cbn [bind].
      assert (CL : evals rt cl (EBin Eq (script_cmp "Hebrew" (EIdx "label" (EBin Sub (EVar "pos") (int 1)))) (int 0)) (co (Some cp) None None) (I32, b2z (String.eqb (script_name U a) "Hebrew")) (co (Some cp) None None)).
      { ev. rewrite (u64_id (pos - 1)) by (unfold two64 in *; lia). rewrite (cell_rd _ _ _ Ea). cc. rewrite F2. destruct (String.eqb (script_name U a) "Hebrew"); reflexivity. }
      destruct (String.eqb (script_name U a) "Hebrew"); eexists; apply K1; (si; [exact D1|]); cbn; (si; [exact D2|]); cbn; (si; [exact D3|]); cbn; (sq; [si; [exact PF|]; cbn; apply runs_skip|]).
      - eapply (runs_seq_stop rt cl); [|exact I]. si; [exact CL|]. cbn. eapply (runs_ret rt cl). ev.
      - sq; [si; [exact CL|]; cbn; apply runs_skip|]. eapply (runs_ret rt cl). ev. }
    assert (I0 : forall ok, R (SExp (EAsg "i" (int 0))) (co (Some cp) None ok) (Norm (co (Some cp) (Some 0) ok))) by (intros ok; sx).
    destruct (is_arabic_indic cp).
    { destruct (digits_runs l [] (Some cp) eq_refl) as (st & X). exists st. apply K1. si; [exact D1|]. cbn. si; [exact D2|]. cbn. si; [exact D3|]. cbn. si; [exact D4|]. cbn.
      replace (code _) with (if existsb is_ext_arabic_indic l then IDN2_CONTEXTO else 0) by (destruct (existsb _ l); reflexivity). eapply (runs_init rt cl mono); [apply I0|exact X]. }
    destruct (is_ext_arabic_indic cp).
    { destruct (ext_digits_runs l [] (Some cp) eq_refl) as (st & X). exists st. apply K1. si; [exact D1|]. cbn. si; [exact D2|]. cbn. si; [exact D3|]. cbn. si; [exact D4|]. cbn. si; [exact D5|]. cbn.
      replace (code _) with (if existsb is_arabic_indic l then IDN2_CONTEXTO else 0) by (destruct (existsb _ l); reflexivity). eapply (runs_init rt cl mono); [apply I0|exact X]. }
    destruct (cp =? 0x30FB).
    { destruct (kana_runs l [] (Some cp) eq_refl) as (i & X). fold (kana). change (fun c => (script_name U c =? "Hiragana")%string || (script_name U c =? "Katakana")%string || (script_name U c =? "Han")%string) with kana.
      assert (CK : evals rt cl (EVar "script_ok") (co (Some cp) i (Some (b2z (existsb kana l)))) (U8, b2z (existsb kana l)) (co (Some cp) i (Some (b2z (existsb kana l))))) by ev.
      destruct (existsb kana l); eexists; apply K1; (si; [exact D1|]); cbn; (si; [exact D2|]); cbn; (si; [exact D3|]); cbn; (si; [exact D4|]); cbn; (si; [exact D5|]); cbn; (si; [exact D6|]); cbn; (sq; [sx|]); (sq; [sq; [apply I0|exact X]|]).
      - eapply (runs_seq_stop rt cl); [|exact I]. si; [exact CK|]. cbn. eapply (runs_ret rt cl). ev.
      - sq; [si; [exact CK|]; cbn; apply runs_skip|]. eapply (runs_ret rt cl). ev. }
    eexists. apply K1. si; [exact D1|]. cbn. si; [exact D2|]. cbn. si; [exact D3|]. cbn. si; [exact D4|]. cbn. si; [exact D5|]. cbn. si; [exact D6|]. cbn. eapply (runs_ret rt cl). ev.
  Qed.
End Context.

Lemma with_rule_body : forall U d c, exists st, runs (types (label_program U)) (calls (label_program U) d) (f_body c_contexto_with_rule) (mkst [("cp", (U32, Some c))] []) (Ret (I32, b2z (contexto_with_rule c)) st).
Proof.
  intros U d c. eexists. eapply (runs_if _ _ (lmono U d)).
  - exists O. apply cases_eval; [reflexivity| |discriminate]. repeat constructor; lia.
  - cbn [snd]. assert (E : existsb (Z.eqb c) ([183; 885; 1523; 1524] ++ arabic_indic ++ ext_arabic_indic ++ [12539]) = contexto_with_rule c).
    { unfold contexto_with_rule, is_arabic_indic, is_ext_arabic_indic. cbn [app arabic_indic ext_arabic_indic existsb]. destruct (_ || (c =? 12539)) eqn:Q; symmetry; lia. }
    rewrite E. destruct (contexto_with_rule c); cbn; eapply runs_ret; ev.
Qed.
