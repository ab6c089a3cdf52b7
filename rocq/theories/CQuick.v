(** The text of _isNFC and _idn2_ascii_p of lib/idna.c computes what Idna.v says. *)
From Coq Require Import String.
From Verif Require Import Base PunyBase Uenv DataTypes SpecTables Gentr46 Tr46Map Tr46Valid Idna CLang CLogic CLeaf CDecode CEncode CLabel SpecCLabel CBidi CContext.
Local Open Scope string_scope.
Local Open Scope list_scope.
Local Open Scope Z_scope.
Arguments calls : simpl never.
Arguments types : simpl never.
Arguments label_program : simpl never.

Section Quick.
  Variable U : uenv.
  Notation P := (label_program U).
  Variable d : nat.
  Notation rt := (types P).
  Notation cl := (calls P d).
  Notation mono := (lmono U d).
  Notation R := (runs rt cl).
  Ltac sq := eapply (runs_seq rt cl mono).
  Ltac sx := eapply (runs_exp rt cl); ev.
  Ltac si := eapply (runs_if rt cl mono).
  Variable l : list Z.
  Hypothesis L4 : 4 * zlen l < two64.
  Definition qs (last result it ch cc map : option Z) : cst :=
    mkst [("len", (U64, Some (zlen l))); ("lastCanonicalClass", (I32, last)); ("result", (I32, result)); ("it", (U64, it)); ("ch", (U32, ch)); ("canonicalClass", (I32, cc)); ("map", (I32, map))] (ms l).
  Definition q_items : list stmt := Eval cbn in flat (f_body c_isNFC).
  Definition q_loop : stmt := Eval cbn in second (nth 2 q_items SSkip).
  Lemma lib_ccc_q : forall n t c, cl n "uc_combining_class" [(t, c)] [] = Val (ue_ccc U c). Proof. intros n t c. destruct d; reflexivity. Qed.
  Lemma lib_qc : forall n t c, cl n "get_nfcqc_map" [(t, c)] [] = match get_nfcqc_map c with Ok (Some q) => Val (nq_check q) | Ok None => Val (-1) | _ => UB end. Proof. intros n t c. destruct d; reflexivity. Qed.
  Lemma isNFC_runs : forall r p skip last result ch cc map, l = p ++ r -> exists k, isNFC_loop U r skip last result = Ok k /\
    exists st, R (SSeq q_loop (SReturn (EVar "result"))) (qs (Some last) (Some result) (Some (zlen p + if skip then 1 else 0)) ch cc map) (Ret (I32, k) st).
  Proof.
    induction r as [|c r IH]; intros p skip last result ch cc map E; cbn [isNFC_loop].
    - rewrite app_nil_r in E. subst p. exists result. split; [reflexivity|]. eexists. sq.
      + eapply (runs_loop_end rt cl mono); [ev|]. cc. destruct (zlen l + (if skip then 1 else 0) <? zlen l) eqn:Q; [destruct skip; lia|reflexivity].
      + eapply (runs_ret rt cl). ev.
    - pose proof (f_equal zlen E) as LE. rewrite zlen_app, zlen_cons in LE. pose proof (z0 _ p). pose proof (z0 _ r). assert (E' : l = (p ++ [c]) ++ r) by (rewrite <- app_assoc; exact E).
      assert (ZP : zlen (p ++ [c]) = zlen p + 1) by (rewrite zlen_app; reflexivity).
      destruct skip.
      + destruct (IH (p ++ [c]) false last result ch cc map E') as (k & K & st & X). exists k. split; [exact K|]. exists st. rewrite ZP, Z.add_0_r in X. exact X.
      + rewrite Z.add_0_r. set (s0 := qs (Some last) (Some result) (Some (zlen p)) ch cc map).
        assert (C : evals rt cl (EBin Lt (EVar "it") (EVar "len")) s0 (I32, 1) s0) by (unfold s0; ev; destruct (zlen p <? zlen l) eqn:Q; [reflexivity|lia]).
        set (it := zlen p + if 0x10000 <=? c then 1 else 0).
        assert (S1 : R (SExp (EAsg "ch" (EIdx "label" (EVar "it")))) s0 (Norm (qs (Some last) (Some result) (Some (zlen p)) (Some c) cc map))) by (unfold s0; sx; rewrite (cell_at l p c r E); reflexivity).
        assert (S2 : R (SIf (EBin Ge (EVar "ch") (int 65536)) (SExp (EPost "it")) SSkip) (qs (Some last) (Some result) (Some (zlen p)) (Some c) cc map) (Norm (qs (Some last) (Some result) (Some it) (Some c) cc map))).
        { unfold it. destruct (65536 <=? c) eqn:Q.
          - si; [ev|]. cc. rewrite Q. cbn. sx. rewrite (u64_id (zlen p + 1)) by (unfold two64 in *; lia). reflexivity.
          - si; [ev|]. cc. rewrite Q. cbn. rewrite Z.add_0_r. apply runs_skip. }
        set (g := ue_ccc U c).
        assert (S3 : R (SExp (EAsg "canonicalClass" (ECall "uc_combining_class" [] [EVar "ch"]))) (qs (Some last) (Some result) (Some it) (Some c) cc map) (Norm (qs (Some last) (Some result) (Some it) (Some c) (Some g) map))) by (sx; rewrite lib_ccc_q; reflexivity).
        assert (S4 : evals rt cl (EAnd (EBin Gt (EVar "lastCanonicalClass") (EVar "canonicalClass")) (EBin Ne (EVar "canonicalClass") (int 0))) (qs (Some last) (Some result) (Some it) (Some c) (Some g) map) (I32, b2z ((g <? last) && negb (g =? 0))) (qs (Some last) (Some result) (Some it) (Some c) (Some g) map)).
        { ev. destruct (g <? last); cc; [|reflexivity]. destruct (g =? 0); reflexivity. }
        destruct ((g <? last) && negb (g =? 0)).
        { exists 0. split; [reflexivity|]. eexists. eapply (runs_seq_stop rt cl); [|exact I]. eapply (runs_loop_stop rt cl mono) with (o := Ret _ _); [exact C|discriminate| |exact I].
          sq; [exact S1|]. sq; [exact S2|]. sq; [exact S3|]. eapply (runs_seq_stop rt cl); [|exact I]. si; [exact S4|]. cbn. eapply (runs_ret rt cl). ev. }
        destruct (nfcqc_spec c) as (o & G & SP). rewrite G. cbn [bind].
        set (v := match o with Some q => nq_check q | None => -1 end).
        assert (S5 : R (SExp (EAsg "map" (ECall "get_nfcqc_map" [] [EVar "ch"]))) (qs (Some last) (Some result) (Some it) (Some c) (Some g) map) (Norm (qs (Some last) (Some result) (Some it) (Some c) (Some g) (Some v)))).
        { eapply (runs_exp rt cl) with (v := (I32, v)). exists O. cbn. rewrite lib_qc, G. unfold v. destruct o; reflexivity. }
        assert (S6 : evals rt cl (EBin Ne (EVar "map") (EBin Sub (int 0) (int 1))) (qs (Some last) (Some result) (Some it) (Some c) (Some g) (Some v)) (I32, b2z (negb (v =? -1))) (qs (Some last) (Some result) (Some it) (Some c) (Some g) (Some v))) by (ev; destruct (v =? -1); reflexivity).
        destruct (nfc_qc c) as [k|].
        * destruct SP as (q & -> & Hq). assert (V : (v =? -1) = false /\ (v =? 0) = false) by (unfold v; rewrite Hq; destruct k; split; reflexivity). fold v. rewrite (proj2 V). cbn [negb]. rewrite (proj1 V) in S6.
          exists 0. split; [reflexivity|]. eexists. eapply (runs_seq_stop rt cl); [|exact I]. eapply (runs_loop_stop rt cl mono) with (o := Ret _ _); [exact C|discriminate| |exact I].
          sq; [exact S1|]. sq; [exact S2|]. sq; [exact S3|]. sq; [si; [exact S4|]; cbn; apply runs_skip|]. sq; [exact S5|]. eapply (runs_seq_stop rt cl); [|exact I]. si; [exact S6|]. cbn.
          eapply (runs_seq_stop rt cl); [|exact I]. si; [ev|]. cbn [snd]. rewrite (proj2 V). eapply (runs_ret rt cl). ev.
        * subst o. unfold v in S5, S6. clear v. destruct (IH (p ++ [c]) (0x10000 <=? c) g result (Some c) (Some g) (Some (-1)) E') as (k & K & st & X). exists k. split; [exact K|]. exists st.
          eapply (runs_seq_loop rt cl mono); [exact C|discriminate| | |exact X].
          -- sq; [exact S1|]. sq; [exact S2|]. sq; [exact S3|]. sq; [si; [exact S4|]; cbn; apply runs_skip|]. sq; [exact S5|]. sq; [si; [exact S6|]; cbn; apply runs_skip|]. sx.
          -- eapply (runs_exp rt cl). ev. replace (zlen (p ++ [c]) + (if 65536 <=? c then 1 else 0)) with (it + 1) by (unfold it; rewrite ZP; lia). rewrite (u64_id (it + 1)) by (unfold it, two64 in *; destruct (65536 <=? c); lia). reflexivity.
  Qed.
  Lemma isNFC_body : exists k, isNFC U l = Ok k /\ exists st, R (f_body c_isNFC) (qs None None None None None None) (Ret (I32, k) st).
  Proof.
    destruct (isNFC_runs l [] false 0 1 None None None eq_refl) as (k & K & st & X). exists k. split; [exact K|]. exists st. sq; [sx|]. sq; [sx|]. eapply (runs_init rt cl mono); [sx|exact X].
  Qed.
End Quick.

Section Ascii.
  Variable U : uenv.
  Notation P := (label_program U).
  Variable d : nat.
  Notation rt := (types P).
  Notation cl := (calls P d).
  Notation mono := (lmono U d).
  Notation R := (runs rt cl).
  Ltac sq := eapply (runs_seq rt cl mono).
  Ltac sx := eapply (runs_exp rt cl); ev.
  Ltac si := eapply (runs_if rt cl mono).
  Variable l : list Z.
  Hypothesis L1 : zlen l < two64.
  Definition as_ (i : option Z) : cst := mkst [("srclen", (U64, Some (zlen l))); ("i", (U64, i))] [("src", (U8, map Some l))].
  Definition a_loop : stmt := Eval cbn in match f_body c_ascii_p with SSeq (SSeq _ a) b => SSeq a b | s => s end.
  Lemma ascii_runs : forall r p, l = p ++ r -> exists st, R a_loop (as_ (Some (zlen p))) (Ret (I32, b2z (ascii_p r)) st).
  Proof.
    induction r as [|c r IH]; intros p E; cbn [ascii_p forallb].
    - rewrite app_nil_r in E. subst p. eexists. sq; [eapply (runs_loop_end rt cl mono); [ev|]; cc; rewrite Z.ltb_irrefl; reflexivity|]. eapply (runs_ret rt cl). ev.
    - pose proof (f_equal zlen E) as LE. rewrite zlen_app, zlen_cons in LE. pose proof (z0 _ p). pose proof (z0 _ r).
      assert (C : evals rt cl (EBin Lt (EVar "i") (EVar "srclen")) (as_ (Some (zlen p))) (I32, 1) (as_ (Some (zlen p)))) by (ev; destruct (zlen p <? zlen l) eqn:Q; [reflexivity|lia]).
      assert (D : evals rt cl (EBin Ge (EIdx "src" (EVar "i")) (int 128)) (as_ (Some (zlen p))) (I32, b2z (negb (c <? 128))) (as_ (Some (zlen p)))).
      { ev. rewrite (cell_at l p c r E). cc. rewrite Z.ltb_antisym, negb_involutive. destruct (128 <=? c); reflexivity. }
      destruct (c <? 128); cbn [negb andb] in *.
      + destruct (IH (p ++ [c]) ltac:(rewrite <- app_assoc; exact E)) as (st & X). exists st. eapply (runs_seq_loop rt cl mono); [exact C|discriminate| | |exact X].
        * si; [exact D|]. cbn. apply runs_skip.
        * sx. rewrite zlen_app. change (zlen [c]) with 1. rewrite (u64_id (zlen p + 1)) by (unfold two64 in *; lia). reflexivity.
      + eexists. eapply (runs_seq_stop rt cl); [|exact I]. eapply (runs_loop_stop rt cl mono) with (o := Ret _ _); [exact C|discriminate| |exact I]. si; [exact D|]. cbn. eapply (runs_ret rt cl). ev.
  Qed.
  Lemma ascii_body : exists st, R (f_body c_ascii_p) (as_ None) (Ret (I32, b2z (ascii_p l)) st).
  Proof. destruct (ascii_runs l [] eq_refl) as (st & X). exists st. eapply (runs_init rt cl mono); [sx|exact X]. Qed.
End Ascii.
