(** The whole of _idn2_punycode_decode. *)
From Coq Require Import String.
From Verif Require Import Base PunyBase Puny PunyTop CLang CLogic CPuny CLeaf CDecode.
Local Open Scope string_scope.
Local Open Scope list_scope.
Local Open Scope Z_scope.
Arguments calls : simpl never.

Section Top.
  Variable ch : cty.
  Hypothesis CH : ch = I8 \/ ch = U8.
  Notation rt := (types (puny_program ch)).
  Notation cl := (calls (puny_program ch) 1).
  Notation R := (runs rt cl).
  Notation mono1 := (mono1 ch).
  Ltac sq := eapply (runs_seq rt cl mono1).
  Ltac sx := eapply (runs_exp rt cl); ev.
  Ltac u64s := repeat match goal with |- context [u64 ?z] => rewrite (u64_id z) by (unfold two64 in *; lia) end.

  Variable s : list Z.
  Hypothesis BS : Forall (fun b => 0 <= b <= 255) s.
  Hypothesis LS : zlen s < two64.
  Variables (mo : Z) (buf : list (option Z)).
  Hypothesis MO : 0 <= mo < 4294967295.
  Hypothesis CAP : mo <= zlen buf.
  Notation vs := (vs s).
  Notation ms := (ms ch s mo).
  Definition ms' (z : Z) (buf : list (option Z)) : list (string * (cty * list (option Z))) := [("input", (ch, map (byte ch) s)); ("output_length", (U64, [Some z])); ("output", (U32, buf))].

  Lemma dec_copy_ok : forall l cap o, zlen o + zlen l <= cap -> dec_copy cap l o = Ok (o ++ l).
  Proof.
    induction l as [|c l IH]; intros cap o H; cbn [dec_copy]; [now rewrite app_nil_r|]. rewrite zlen_cons in H. assert (0 <= zlen l) by (unfold zlen; lia).
    unfold put. replace (zlen o <? cap) with true by lia. cbn [bind]. rewrite IH by (rewrite zlen_app; unfold zlen in *; cbn; lia). now rewrite <- app_assoc.
  Qed.

  Definition result (o : out (list Z)) (st : cst) : Prop :=
    match o with
    | Ok r => exists rest v, zlen r + zlen rest = zlen buf /\ zlen r <= mo /\ R (f_body c_punycode_decode) st (Ret (I32, 0) (mkst v (ms' (zlen r) (map Some r ++ rest))))
    | Fail rc => exists v buf', zlen buf' = zlen buf /\ R (f_body c_punycode_decode) st (Ret (I32, rc) (mkst v (ms buf')))
    | _ => True
    end.

  (** From the setting of n on. *)
  Lemma tail_runs : forall (ALL : Forall (fun c => dec_basic c = true) s) p inp o rest b j st, s = p ++ inp -> b = zlen p -> zlen o <= mo -> zlen (map Some o ++ rest) = zlen buf ->
    (forall x, R (SSeq (nth 6 d_items SSkip) (SSeq (nth 7 d_items SSkip) (SSeq (nth 8 d_items SSkip) (SSeq (nth 9 d_items SSkip) (SSeq (nth 10 d_items SSkip) (nth 11 d_items SSkip))))))
      (mkst (vs None (Some (zlen o)) None (Some mo) None None None None None None (Some b) j None) (ms (map Some o ++ rest))) x -> R (f_body c_punycode_decode) st x) ->
    result (dec_main (length s) (zlen buf) mo inp o initial_n 0 initial_bias) st.
  Proof.
    intros ALL p inp o rest b j st E Eb HO HB K.
    pose proof (main_runs ch CH s BS LS mo (zlen buf) MO CAP ALL (length s) inp p o rest 128 0 72 None None None None None (Some b) j E HB HO ltac:(lia) ltac:(lia) ltac:(lia)) as M.
    cbv zeta in M. unfold result. change initial_n with 128. change initial_bias with 72.
    assert (K1 : forall tl x, R (SSeq d_main tl) (mkst (vs (Some 128) (Some (zlen o)) (Some 0) (Some mo) (Some 72) None None None None None (Some b) j (Some (zlen p))) (ms (map Some o ++ rest))) x ->
      R (SSeq (nth 6 d_items SSkip) (SSeq (nth 7 d_items SSkip) (SSeq (nth 8 d_items SSkip) (SSeq (nth 9 d_items SSkip) tl))))
      (mkst (vs None (Some (zlen o)) None (Some mo) None None None None None None (Some b) j None) (ms (map Some o ++ rest))) x).
    { intros tl x X. sq; [sx|]. sq; [sx|]. sq; [sx|]. destruct X as (m & X & NX). exists m. split; [|exact NX]. cbn [exec nth d_items] in X |- *. rewrite <- X. subst b. reflexivity. }
    destruct (dec_main (length s) (zlen buf) mo inp o 128 0 72) as [r|rc| |]; [| |exact I|exact I].
    - destruct M as (rest' & n' & i' & b' & ol & w & k & d & t & inn & A & B & M). exists rest'. eexists. split; [rewrite zlen_app, zlen_map in A; exact A|]. split; [exact B|]. apply K, K1. sq; [exact M|]. sq; [|eapply (runs_ret rt cl); ev].
      exists O. split; [|discriminate]. cbn. assert (0 <= zlen r) by (unfold zlen; lia). u64s. reflexivity.
    - destruct M as (v & buf' & A & M). exists v, buf'. split; [exact A|]. apply K, K1. eapply (runs_seq_stop rt cl); [exact M|exact I].
  Qed.

  Lemma decode_body : result (puny_decode s mo (zlen buf)) (mkst (declare c_punycode_decode [(U64, zlen s)]) (ms buf)).
  Proof.
    assert (S0 : 0 <= zlen s) by (unfold zlen; lia).
    assert (D : declare c_punycode_decode [(U64, zlen s)] = vs None None None None None None None None None None None None None) by (cbn; u64s; reflexivity). rewrite D. clear D.
    set (st0 := mkst _ _).
    set (st1 := mkst (vs None (Some 0) None None None None None None None None (Some 0) None None) (ms buf)).
    assert (K1 : forall tl x, R tl st1 x -> R (SSeq (nth 0 d_items SSkip) (SSeq (nth 1 d_items SSkip) tl)) st0 x).
    { intros tl x X. sq; [sx|]. sq; [sx|]. exact X. }
    assert (C : (zlen s = 0 /\ puny_decode s mo (zlen buf) = Fail IDN2_PUNYCODE_BAD_INPUT) \/ (0 < zlen s /\ puny_decode s mo (zlen buf) =
      let* b := dec_check s 0 0 in
      let max_out := if maxint <? mo then maxint else mo in
      let* c := rd s b in
      if c =? delimiter then
        if (b =? 0) || (b =? u64 (zlen s - 1)) then Fail IDN2_PUNYCODE_BAD_INPUT
        else if max_out <=? b then Fail IDN2_PUNYCODE_BIG_OUTPUT
        else let* o := dec_copy (zlen buf) (firstn (Z.to_nat b) s) [] in dec_main (length s) (zlen buf) max_out (skipn (Z.to_nat (b + 1)) s) o initial_n 0 initial_bias
      else dec_main (length s) (zlen buf) max_out (skipn (Z.to_nat b) s) [] initial_n 0 initial_bias)).
    { clear. destruct s as [|c l]; [left; split; reflexivity|right; split; [rewrite zlen_cons; unfold zlen; lia|reflexivity] ]. }
    destruct C as [(SP & ->)|(SP & ->)].
    { eexists. exists buf. split; [reflexivity|]. apply K1. eapply (runs_seq_stop rt cl); [|exact I]. eapply (runs_if rt cl mono1); [ev|]. cc. rewrite SP. cbn. eapply (runs_ret rt cl). ev. }
    set (st2 := mkst (vs None (Some 0) None None None None None None None None (Some 0) (Some 0) None) (ms buf)).
    assert (K2 : forall tl x, R (SSeq d_check tl) st2 x -> R (SSeq (nth 2 d_items SSkip) (SSeq (nth 3 d_items SSkip) tl)) st1 x).
    { intros tl x X. sq; [eapply (runs_if rt cl mono1); [ev|]; cc; replace (zlen s =? 0) with false by lia; cbn; apply runs_skip|].
      destruct X as (m & X & NX). exists m. split; [|exact NX]. exact X. }
    pose proof (check_runs ch CH s BS LS mo s [] 0 0 buf None (Some 0) None None None None None None None None None eq_refl eq_refl ltac:(lia)) as CK.
    pose proof (check_all s 0 0) as ALL.
    destruct (dec_check s 0 0) as [b|rc| |]; cbn [bind]; [| |exact I|exact I].
    2: { destruct CK as (v & CK). exists v, buf. split; [reflexivity|]. apply K1, K2. eapply (runs_seq_stop rt cl); [exact CK|exact I]. }
    destruct CK as (CK & B0 & B1). assert (B2 : b < zlen s) by lia. clear B1. specialize (ALL b eq_refl).
    replace (maxint <? mo) with false by (unfold maxint; lia).
    destruct (rd s b) as [c|rc| |] eqn:RD; cbn [bind]; [| |exact I|exact I].
    2: { unfold rd in RD. destruct (b <? 0); [discriminate|]. destruct (nth_error s (Z.to_nat b)); discriminate. }
    assert (SPL : s = firstn (Z.to_nat b) s ++ c :: skipn (Z.to_nat (b + 1)) s).
    { unfold rd in RD. destruct (b <? 0); [discriminate|]. destruct (nth_error s (Z.to_nat b)) eqn:N; [|discriminate]. injection RD as ->.
      destruct (nth_error_split s _ N) as (l1 & l2 & E & L). rewrite E at 1 2 3. rewrite <- L. rewrite firstn_app, Nat.sub_diag, firstn_all. cbn [firstn]. rewrite app_nil_r. f_equal. f_equal.
      replace (Z.to_nat (b + 1)) with (S (length l1)) by lia. rewrite skipn_app, skipn_all2 by lia. replace (S (length l1) - length l1)%nat with 1%nat by lia. reflexivity. }
    set (p := firstn (Z.to_nat b) s) in *. assert (LP : zlen p = b) by (apply (zlen_firstn s); lia).
    destruct (in_basic ch CH s BS ALL p c _ SPL) as (BC & CC & HC & _). pose proof (in_cell ch s BS LS p c _ SPL) as IC. rewrite LP, CC in IC.
    set (st3 := mkst (vs None (Some 0) None (Some mo) None None None None None None (Some b) (Some (zlen s)) None) (ms buf)).
    assert (K3 : forall tl x, R tl st3 x -> R (SSeq d_check (SSeq (nth 4 d_items SSkip) tl)) st2 x).
    { intros tl x X. sq; [exact CK|]. sq; [|exact X]. sx. change (cell [Some mo] 0) with (Val mo). cc. replace (4294967295 <? mo) with false by lia. cc. change (cell [Some mo] 0) with (Val mo). cc. rewrite (u32_id mo) by lia. rewrite ?(u32_id mo) by lia. reflexivity. }
    assert (A : eval rt cl 0 (EIdx "input" (EVar "b")) st3 = Val ((ch, c), st3)) by (cbn; rewrite IC; reflexivity).
    pose proof (delim_eval rt cl ch 0 _ st3 _ CH A) as DE. change delimiter with 45.
    destruct (c =? 45) eqn:C45.
    2: { change (skipn (Z.to_nat b) s) with (skipn (Z.to_nat b) s). eapply tail_runs with (p := p) (o := []) (rest := buf) (b := b) (j := Some (zlen s)); [exact ALL| |now symmetry| |reflexivity|].
         - symmetry. apply firstn_skipn.
         - change (zlen (@nil Z)) with 0. lia.
         - intros x X. apply K1, K2, K3. sq; [eapply (runs_if rt cl mono1); [exists O; exact DE|]; cbn; apply runs_skip|]. exact X. }
    assert (KD : forall y x, stops x -> R y st3 x -> y = d_delim -> R (f_body c_punycode_decode) st0 x).
    { intros y x Sx X ->. apply K1, K2, K3. eapply (runs_seq_stop rt cl); [|exact Sx]. eapply (runs_if rt cl mono1); [exists O; exact DE|]. cbn. exact X. }
    assert (EV : evals rt cl (EOr (ENot (EVar "b")) (EBin Eq (EVar "b") (EBin Sub (EVar "input_length") (int 1)))) st3 (I32, if (b =? 0) || (b =? u64 (zlen s - 1)) then 1 else 0) st3).
    { ev. destruct (b =? 0); cc; [reflexivity|]. destruct (b =? u64 (zlen s - 1)); cc; reflexivity. }
    destruct ((b =? 0) || (b =? u64 (zlen s - 1))) eqn:BB.
    { eexists. exists buf. split; [reflexivity|]. eapply KD; [exact I| |reflexivity]. eapply (runs_seq_stop rt cl); [|exact I].
      eapply (runs_if rt cl mono1); [exact EV|]. cbn. eapply (runs_ret rt cl). ev. }
    destruct (mo <=? b) eqn:MB.
    { eexists. exists buf. split; [reflexivity|]. eapply KD; [exact I| |reflexivity]. sq; [eapply (runs_if rt cl mono1); [exact EV|]; cbn; apply runs_skip|]. eapply (runs_seq_stop rt cl); [|exact I].
      eapply (runs_if rt cl mono1); [ev|]. cc. u64s. rewrite MB. cbn. eapply (runs_ret rt cl). ev. }
    assert (COP : dec_copy (zlen buf) p [] = Ok p) by (apply dec_copy_ok; change (zlen (@nil Z)) with 0; lia). rewrite COP. cbn [bind].
    destruct (copy_runs ch CH s BS LS mo MO ALL p [] (c :: skipn (Z.to_nat (b + 1)) s) [] buf 0 b None None (Some mo) None None None None None None None SPL eq_refl (eq_sym LP) ltac:(lia) ltac:(change (zlen (@nil Z)) with 0; lia)) as (rest' & LR & CP).
    cbn [app map] in CP. eapply tail_runs with (p := p ++ [c]) (o := p) (rest := rest') (b := b + 1) (j := Some b); [exact ALL|rewrite <- app_assoc; exact SPL| | | |].
    - rewrite zlen_app, LP. reflexivity.
    - lia.
    - rewrite zlen_app, zlen_map. lia.
    - intros x X. apply K1, K2, K3. sq; [eapply (runs_if rt cl mono1); [exists O; exact DE|]; cbn|exact X].
      sq; [eapply (runs_if rt cl mono1); [exact EV|]; cbn; apply runs_skip|]. sq; [eapply (runs_if rt cl mono1); [ev|]; cc; u64s; rewrite MB; cbn; apply runs_skip|].
      sq; [sq; [sx|exact CP]|]. sx. u64s. reflexivity.
  Qed.
End Top.
