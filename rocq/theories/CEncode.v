(** The text of the Punycode encoder computes what Puny.v says. *)
From Coq Require Import String.
From Verif Require Import Base PunyBase Puny CLang CLogic CPuny CLeaf CDecode.
Local Open Scope string_scope.
Local Open Scope list_scope.
Local Open Scope Z_scope.
Arguments calls : simpl never.

Definition e_items (ch : cty) : list stmt := Eval cbn in flat (f_body (c_punycode_encode ch)).
Definition e_basic (ch : cty) : stmt := Eval cbn in second (nth 7 (e_items ch) SSkip).
Definition e_main (ch : cty) : stmt := Eval cbn in nth 10 (e_items ch) SSkip.
Definition e_round : list stmt := Eval cbn in flat (loop_body (e_main I8)).
Definition e_next : stmt := Eval cbn in second (nth 0 e_round SSkip).
Definition e_scan : stmt := Eval cbn in second (nth 4 e_round SSkip).
Definition e_code : list stmt := Eval cbn in flat (then_part (second (loop_body e_scan))).
Definition e_var : stmt := Eval cbn in second (nth 0 e_code SSkip).

Lemma thresh_small : forall k bias, 0 <= k < 4294967296 -> 0 <= bias < 4294967296 -> 1 <= thresh k bias <= 26.
Proof.
  intros k bias Hk Hb. unfold thresh. destruct (k <=? bias) eqn:A; [lia|]. destruct (u32 (bias + 26) <=? k) eqn:B; [lia|].
  rewrite (u32_id (k - bias)) by lia. destruct (Z_lt_dec (bias + 26) 4294967296) as [L|L]; [rewrite u32_id in B by lia; lia|].
  exfalso. replace (u32 (bias + 26)) with (bias + 26 - 4294967296) in B; [lia|]. unfold u32, two32. replace (bias + 26) with (bias + 26 - 4294967296 + 1 * 4294967296) at 2 by lia.
  rewrite Z.mod_add, Z.mod_small by lia. lia.
Qed.
Lemma adapt_total : forall d np ft, match adapt d np ft with Fail _ => False | _ => True end.
Proof.
  intros d np ft. unfold adapt. destruct (np =? 0); [exact I|]. generalize 0. generalize (u32 ((if ft then d / 700 else Z.shiftr d 1) + (if ft then d / 700 else Z.shiftr d 1) / np)). generalize 32%nat.
  induction n as [|n IH]; intros x k; cbn [adapt_loop]; [exact I|]. destruct (455 <? x); [apply IH|]. destruct (u32 (x + 38) =? 0); exact I.
Qed.
Lemma encode_digit_range : forall d, 0 <= d < 36 -> 0 <= encode_digit d <= 127.
Proof. intros d H. unfold encode_digit. destruct (d <? 26) eqn:E; lia. Qed.

Lemma after_after : forall o f g, after (after o f) g = after o (fun st => after (f st) g). Proof. now intros []. Qed.
(** A loop followed by a statement, unrolled once. *)
Lemma runs_seq_loop : forall rt cl, (forall n m f vs a, (n <= m)%nat -> cl n f vs a <> Fuel -> cl m f vs a = cl n f vs a) ->
  forall c step body tl st v st1 st2 st3 o, evals rt cl c st v st1 -> snd v <> 0 -> runs rt cl body st1 (Norm st2) -> runs rt cl step st2 (Norm st3) -> runs rt cl (SSeq (SLoop c step body) tl) st3 o ->
  runs rt cl (SSeq (SLoop c step body) tl) st o.
Proof.
  intros rt cl mono c step body tl st v st1 st2 st3 o A B C D (n & X & NX). cbn [exec] in X.
  destruct (exec rt cl n (SLoop c step body) st3) as [st4|st4|st4|v4 st4| |] eqn:E; cbn [exec] in E; rewrite E in X; cbn [after] in X.
  - eapply (runs_seq rt cl mono); [|exists n; split; [exact X|exact NX]]. eapply (runs_loop_next rt cl mono); [exact A|exact B|exact C|exact D|]. exists n. split; [exact E|discriminate].
  - subst o. eapply (runs_seq_stop rt cl); [|exact I]. eapply (runs_loop_next rt cl mono); [exact A|exact B|exact C|exact D|]. exists n. split; [exact E|discriminate].
  - subst o. eapply (runs_seq_stop rt cl); [|exact I]. eapply (runs_loop_next rt cl mono); [exact A|exact B|exact C|exact D|]. exists n. split; [exact E|discriminate].
  - subst o. eapply (runs_seq_stop rt cl); [|exact I]. eapply (runs_loop_next rt cl mono); [exact A|exact B|exact C|exact D|]. exists n. split; [exact E|discriminate].
  - subst o. eapply (runs_seq_stop rt cl); [|exact I]. eapply (runs_loop_next rt cl mono); [exact A|exact B|exact C|exact D|]. exists n. split; [exact E|discriminate].
  - subst o. now elim NX.
Qed.

Section Encode.
  Variable ch : cty.
  Hypothesis CH : ch = I8 \/ ch = U8.
  Notation rt := (types (puny_program ch)).
  Notation cl := (calls (puny_program ch) 1).
  Notation R := (runs rt cl).
  Notation mono1 := (mono1 ch).
  Ltac sq := eapply (runs_seq rt cl mono1).
  Ltac sx := eapply (runs_exp rt cl); ev.
  Ltac u64s := repeat match goal with |- context [u64 ?z] => rewrite (u64_id z) by (unfold two64 in *; lia) end.

  Variable l : list Z.
  Hypothesis BL : Forall (fun c => 0 <= c < 4294967296) l.
  Hypothesis LL : zlen l < 4294967296.
  Variables (mo cap : Z).
  Hypothesis MO : 0 <= mo < two64.
  Hypothesis CAP : mo <= cap.

  Definition vs (il n delta h b bias j m q k t out mx : option Z) : list (string * (cty * option Z)) :=
    [("input_length_orig", (U64, Some (zlen l))); ("input_length", (U32, il)); ("n", (U32, n)); ("delta", (U32, delta)); ("h", (U32, h)); ("b", (U32, b)); ("bias", (U32, bias));
     ("j", (U32, j)); ("m", (U32, m)); ("q", (U32, q)); ("k", (U32, k)); ("t", (U32, t)); ("out", (U64, out)); ("max_out", (U64, mx))].
  Definition ms (buf : list (option Z)) : list (string * (cty * list (option Z))) := [("input", (U32, map Some l)); ("output_length", (U64, [Some mo])); ("output", (ch, buf))].
  Notation at_ n delta h b bias j m q k t o := (vs (Some (zlen l)) n delta h b bias j m q k t (Some (zlen o)) (Some mo)).

  Lemma e_cell : forall p c r, l = p ++ c :: r -> cell (map Some l) (zlen p) = Val c /\ 0 <= c < 4294967296 /\ 0 <= zlen p < zlen l.
  Proof.
    intros p c r E. split; [rewrite E, map_app; cbn [map]; rewrite <- (zlen_map _ _ (@Some Z) p); apply cell_app|].
    split; [rewrite E in BL; apply Forall_app in BL; destruct BL as (_ & X); now inversion X|]. rewrite E, zlen_app, zlen_cons. unfold zlen. lia.
  Qed.
  Lemma to_char : forall t z, t = U32 \/ t = I32 \/ t = ch -> 0 <= z <= 127 -> cast t ch z = z.
  Proof.
    intros t z T H. destruct T as [-> | [-> | ->]]; destruct CH as [-> | ->]; unfold cast; cbn; try reflexivity; rewrite Z.mod_small; lia.
  Qed.
  (** output[out++] = e *)
  Lemma store_runs : forall e z ty o rest n delta h b bias j m q k t, zlen o < mo -> zlen (map Some o ++ rest) = cap -> 0 <= z <= 127 -> ty = U32 \/ ty = I32 \/ ty = ch ->
    let st1 := mkst (vs (Some (zlen l)) n delta h b bias j m q k t (Some (zlen o + 1)) (Some mo)) (ms (map Some o ++ rest)) in
    eval rt cl 0 e st1 = Val ((ty, z), st1) ->
    exists rest', zlen (map Some (o ++ [z]) ++ rest') = cap /\ zlen (o ++ [z]) = zlen o + 1 /\
      R (SStore "output" (EPost "out") e) (mkst (at_ n delta h b bias j m q k t o) (ms (map Some o ++ rest))) (Norm (mkst (at_ n delta h b bias j m q k t (o ++ [z])) (ms (map Some (o ++ [z]) ++ rest')))).
  Proof.
    intros e z ty o rest n delta h b bias j m q k t HO HB HZ T st1 EV. assert (O0 : 0 <= zlen o) by (unfold zlen; lia).
    rewrite zlen_app, zlen_map in HB. destruct rest as [|x rest]; [change (zlen (@nil (option Z))) with 0 in HB; lia|]. rewrite zlen_cons in HB.
    assert (L1 : zlen (o ++ [z]) = zlen o + 1) by (rewrite zlen_app; reflexivity).
    exists rest. split; [rewrite zlen_app, zlen_map, L1; lia|]. split; [exact L1|].
    exists O. split; [|discriminate].
    assert (A : eval rt cl 0 (EPost "out") (mkst (at_ n delta h b bias j m q k t o) (ms (map Some o ++ x :: rest))) = Val ((U64, zlen o), st1)) by (cc; u64s; reflexivity).
    cbn [exec]. rewrite A. cbn [obind]. rewrite EV. cbn [obind fst snd]. change (assoc "output" (arrs st1)) with (Some (ch, map Some o ++ x :: rest)). cbn iota beta.
    rewrite to_char, set_cell_out by assumption. cbn [obind]. rewrite L1, map_app, <- app_assoc. reflexivity.
  Qed.

  (** The basic code points. *)
  Lemma basic_runs : forall r p o rest n delta h b bias m q k t, l = p ++ r -> zlen (map Some o ++ rest) = cap -> zlen o <= zlen p -> (o = [] \/ zlen o < mo) ->
    let st := mkst (at_ n delta h b bias (Some (zlen p)) m q k t o) (ms (map Some o ++ rest)) in
    match enc_basic cap mo r o with
    | Ok o' => exists rest', zlen (map Some o' ++ rest') = cap /\ zlen o' <= zlen l /\ (o' = [] \/ zlen o' < mo) /\
        R (e_basic ch) st (Norm (mkst (at_ n delta h b bias (Some (zlen l)) m q k t o') (ms (map Some o' ++ rest'))))
    | Fail rc => exists v buf, zlen buf = cap /\ R (e_basic ch) st (Ret (I32, rc) (mkst v (ms buf)))
    | _ => True
    end.
  Proof.
    induction r as [|c r IH]; intros p o rest n delta h b bias m q k t E HB HP HO st; cbn [enc_basic].
    - rewrite app_nil_r in E. subst p. exists rest. split; [exact HB|]. split; [exact HP|]. split; [exact HO|]. eapply (runs_loop_end rt cl mono1); [ev|]. cc. rewrite Z.ltb_irrefl. reflexivity.
    - destruct (e_cell p c r E) as (IC & Hc & Hp). assert (O0 : 0 <= zlen o) by (unfold zlen; lia). assert (LT : (zlen p <? zlen l) = true) by lia.
      assert (P1 : zlen (p ++ [c]) = zlen p + 1) by (rewrite zlen_app; reflexivity).
      assert (STOP : forall v st', R (loop_body (e_basic ch)) st (Ret v st') -> R (e_basic ch) st (Ret v st')).
      { intros v st' X. eapply (runs_loop_stop rt cl mono1 _ _ _ _ _ _ (Ret _ _)); [ev| |exact X|exact I]. cc. rewrite LT. discriminate. }
      assert (NEXT : forall o1 rest1 x, R (loop_body (e_basic ch)) st (Norm (mkst (at_ n delta h b bias (Some (zlen p)) m q k t o1) (ms (map Some o1 ++ rest1)))) ->
        R (e_basic ch) (mkst (at_ n delta h b bias (Some (zlen (p ++ [c]))) m q k t o1) (ms (map Some o1 ++ rest1))) x -> R (e_basic ch) st x).
      { intros o1 rest1 x X Y. eapply (runs_loop_next rt cl mono1); [ev| |exact X| |exact Y]; [cc; rewrite LT; discriminate|]. sx. rewrite P1. rewrite (u32_id (zlen p + 1)) by lia. reflexivity. }
      assert (EB : evals rt cl (basic_cp (EIdx "input" (EVar "j"))) st (I32, if c <? 128 then 1 else 0) st) by (ev; rewrite IC; cc; reflexivity).
      destruct (c <? 128) eqn:C128.
      + assert (U : evals rt cl (EBin Lt (EBin Sub (EVar "max_out") (EVar "out")) (int 2)) st (I32, if u64 (mo - zlen o) <? 2 then 1 else 0) st) by ev.
        destruct (u64 (mo - zlen o) <? 2) eqn:BIG.
        { eexists. exists (map Some o ++ rest). split; [exact HB|]. apply STOP. eapply (runs_if rt cl mono1); [exact EB|]. cbn. eapply (runs_seq_stop rt cl); [|exact I].
          eapply (runs_if rt cl mono1); [exact U|]. cbn. eapply (runs_ret rt cl). ev. }
        assert (H2 : zlen o + 2 <= mo). { destruct HO as [-> | HO]; [change (zlen (@nil Z)) with 0 in *|]; rewrite u64_id in BIG by (unfold two64 in *; lia); lia. }
        unfold put. replace (zlen o <? cap) with true by lia. cbn [bind].
        destruct (store_runs (ECast ch (EIdx "input" (EVar "j"))) c ch o rest n delta h b bias (Some (zlen p)) m q k t ltac:(lia) HB ltac:(lia) ltac:(auto)) as (rest1 & B1 & L1 & X).
        { cbn [eval]. cbn [get_var]. cbn. rewrite IC. cbn. f_equal. f_equal. f_equal. exact (to_char U32 c ltac:(auto) ltac:(lia)). }
        specialize (IH (p ++ [c]) (o ++ [c]) rest1 n delta h b bias m q k t ltac:(rewrite <- app_assoc; exact E) B1 ltac:(lia) ltac:(right; lia)). cbv zeta in IH.
        assert (XX : R (loop_body (e_basic ch)) st (Norm (mkst (at_ n delta h b bias (Some (zlen p)) m q k t (o ++ [c])) (ms (map Some (o ++ [c]) ++ rest1))))).
        { eapply (runs_if rt cl mono1); [exact EB|]. cbn. sq; [eapply (runs_if rt cl mono1); [exact U|]; cbn; apply runs_skip|exact X]. }
        destruct (enc_basic cap mo r (o ++ [c])) as [o'|rc| |]; [| |exact I|exact I].
        * destruct IH as (rest' & A1 & A2 & A3 & A4). exists rest'. split; [exact A1|]. split; [exact A2|]. split; [exact A3|]. eapply NEXT; [exact XX|exact A4].
        * destruct IH as (v & buf & A1 & A2). exists v, buf. split; [exact A1|]. eapply NEXT; [exact XX|exact A2].
      + assert (EV : evals rt cl (EOr (EBin Gt (EIdx "input" (EVar "j")) (int 1114111)) (EAnd (EBin Ge (EIdx "input" (EVar "j")) (int 55296)) (EBin Le (EIdx "input" (EVar "j")) (int 56319)))) st
          (I32, if (1114111 <? c) || ((55296 <=? c) && (c <=? 56319)) then 1 else 0) st).
        { ev. rewrite IC. cc. destruct (1114111 <? c); cc; [reflexivity|]. rewrite IC. cc. destruct (55296 <=? c); cc; [|reflexivity]. rewrite IC. cc. destruct (c <=? 56319); cc; reflexivity. }
        destruct ((1114111 <? c) || ((55296 <=? c) && (c <=? 56319))).
        { eexists. exists (map Some o ++ rest). split; [exact HB|]. apply STOP. eapply (runs_if rt cl mono1); [exact EB|]. cbn.
          eapply (runs_if rt cl mono1); [exact EV|]. cbn. eapply (runs_ret rt cl). ev. }
        specialize (IH (p ++ [c]) o rest n delta h b bias m q k t ltac:(rewrite <- app_assoc; exact E) HB ltac:(lia) HO). cbv zeta in IH.
        assert (XX : R (loop_body (e_basic ch)) st (Norm (mkst (at_ n delta h b bias (Some (zlen p)) m q k t o) (ms (map Some o ++ rest))))).
        { eapply (runs_if rt cl mono1); [exact EB|]. cbn. eapply (runs_if rt cl mono1); [exact EV|]; cbn; apply runs_skip. }
        destruct (enc_basic cap mo r o) as [o'|rc| |]; [| |exact I|exact I].
        * destruct IH as (rest' & A1 & A2 & A3 & A4). exists rest'. split; [exact A1|]. split; [exact A2|]. split; [exact A3|]. eapply NEXT; [exact XX|exact A4].
        * destruct IH as (v & buf & A1 & A2). exists v, buf. split; [exact A1|]. eapply NEXT; [exact XX|exact A2].
  Qed.

  (** The next code point. *)
  Lemma next_runs : forall r p n m delta h b bias q k t (o : list Z) buf, l = p ++ r -> 
    R e_next (mkst (at_ (Some n) delta h b bias (Some (zlen p)) (Some m) q k t o) (ms buf))
      (Norm (mkst (at_ (Some n) delta h b bias (Some (zlen l)) (Some (fold_left (fun m c => if (n <=? c) && (c <? m) then c else m) r m)) q k t o) (ms buf))).
  Proof.
    induction r as [|c r IH]; intros p n m delta h b bias q k t o buf E; cbn [fold_left].
    - rewrite app_nil_r in E. subst p. eapply (runs_loop_end rt cl mono1); [ev|]. cc. rewrite Z.ltb_irrefl. reflexivity.
    - destruct (e_cell p c r E) as (IC & Hc & Hp). assert (P1 : zlen (p ++ [c]) = zlen p + 1) by (rewrite zlen_app; reflexivity).
      specialize (IH (p ++ [c]) n (if (n <=? c) && (c <? m) then c else m) delta h b bias q k t o buf ltac:(rewrite <- app_assoc; exact E)).
      assert (B : R (loop_body e_next) (mkst (at_ (Some n) delta h b bias (Some (zlen p)) (Some m) q k t o) (ms buf)) (Norm (mkst (at_ (Some n) delta h b bias (Some (zlen p)) (Some (if (n <=? c) && (c <? m) then c else m)) q k t o) (ms buf)))).
      { eapply (runs_if rt cl mono1) with (v := (I32, if (n <=? c) && (c <? m) then 1 else 0)).
        - ev. rewrite IC. cc. destruct (n <=? c); cc; [|reflexivity]. rewrite IC. cc. destruct (c <? m); cc; reflexivity.
        - destruct ((n <=? c) && (c <? m)); cbn; [|apply runs_skip]. sx. rewrite IC. cc. reflexivity. }
      eapply (runs_loop_next rt cl mono1); [ev| |exact B| |exact IH].
      + cc. replace (zlen p <? zlen l) with true by lia. discriminate.
      + sx. rewrite P1. rewrite (u32_id (zlen p + 1)) by lia. reflexivity.
  Qed.

  (** A delta as a generalized variable-length integer. *)
  Lemma e_varint_runs : forall fuel o rest n delta h b bias j m q k t, zlen (map Some o ++ rest) = cap -> zlen o <= mo -> 0 <= bias < 4294967296 -> 0 <= q < 4294967296 -> 0 <= k < 4294967296 ->
    let st := mkst (at_ n delta h b (Some bias) j m (Some q) (Some k) t o) (ms (map Some o ++ rest)) in
    match enc_varint fuel cap mo o bias q k with
    | Ok o' => exists rest' q' k' t', zlen (map Some o' ++ rest') = cap /\ zlen o' <= mo /\
        R (SSeq e_var (nth 1 e_code SSkip)) st (Norm (mkst (at_ n delta h b (Some bias) j m q' k' t' o') (ms (map Some o' ++ rest'))))
    | Fail rc => exists v buf, zlen buf = cap /\ R (SSeq e_var (nth 1 e_code SSkip)) st (Ret (I32, rc) (mkst v (ms buf)))
    | _ => True
    end.
  Proof.
    induction fuel as [|fuel IH]; intros o rest n delta h b bias j m q k t HB HO Hb Hq Hk st; cbn [enc_varint]; [exact I|].
    assert (O0 : 0 <= zlen o) by (unfold zlen; lia).
    destruct (mo <=? zlen o) eqn:BIG.
    { eexists. exists (map Some o ++ rest). split; [exact HB|]. eapply (runs_seq_stop rt cl); [|exact I]. eapply (runs_loop_stop rt cl mono1 _ _ _ _ _ _ (Ret _ _)); [ev| | |exact I]; [cc; discriminate|].
      eapply (runs_seq_stop rt cl); [|exact I]. eapply (runs_if rt cl mono1); [ev|]. cc. rewrite BIG. cbn. eapply (runs_ret rt cl). ev. }
    pose proof (thresh_small k bias Hk Hb) as TS. set (th := thresh k bias) in *.
    assert (X1 : forall tl x, R tl (mkst (at_ n delta h b (Some bias) j m (Some q) (Some k) (Some th) o) (ms (map Some o ++ rest))) x ->
      R (SSeq (nth 0 (flat (loop_body e_var)) SSkip) (SSeq (nth 1 (flat (loop_body e_var)) SSkip) tl)) st x).
    { intros tl x X. sq; [eapply (runs_if rt cl mono1); [ev|]; cc; rewrite BIG; cbn; apply runs_skip|]. sq; [|exact X].
      eapply (runs_exp rt cl) with (v := (U32, th)). exists O. unfold th, thresh. cc. destruct (k <=? bias); cc; [reflexivity|].
      destruct (u32 (bias + 26) <=? k); cc; reflexivity. }
    unfold put. replace (zlen o <? cap) with true by lia. rewrite (u32_id (36 - th)) by lia. replace (36 - th =? 0) with false by lia.
    destruct (q <? th) eqn:QT.
    { destruct (store_runs (ECall "encode_digit" [] [EVar "q"; int 0]) (encode_digit q) ch o rest n delta h b (Some bias) j m (Some q) (Some k) (Some th) ltac:(lia) HB (encode_digit_range q ltac:(lia)) ltac:(auto)) as (rest1 & B1 & L1 & X).
      { cbn. rewrite (c_enc_digit ch q) by (auto; lia). reflexivity. }
      exists rest1, (Some q), (Some k), (Some th). split; [exact B1|]. split; [lia|]. sq; [|exact X].
      eapply (runs_loop_stop rt cl mono1 _ _ _ _ _ _ (Brk _)); [ev| | |exact I]; [cc; discriminate|]. apply X1.
      eapply (runs_seq_stop rt cl); [|exact I]. eapply (runs_if rt cl mono1); [ev|]. cc. rewrite QT. cbn. apply runs_brk. }
    cbn [bind]. set (d := th + (q - th) mod (36 - th)). pose proof (Z.mod_pos_bound (q - th) (36 - th) ltac:(lia)) as MB. pose proof (div_range (q - th) (36 - th) ltac:(lia) ltac:(lia)) as DR.
    destruct (store_runs (ECall "encode_digit" [] [EBin Add (EVar "t") (EBin Mod (EBin Sub (EVar "q") (EVar "t")) (EBin Sub (int 36) (EVar "t"))); int 0]) (encode_digit d) ch o rest n delta h b (Some bias) j m (Some q) (Some k) (Some th)
      ltac:(lia) HB (encode_digit_range d ltac:(unfold d; lia)) ltac:(auto)) as (rest1 & B1 & L1 & X).
    { cbn. uc. rewrite (u32_id (36 - th)) by lia. replace (36 - th =? 0) with false by lia. cbn. rewrite (u32_id (q - th)) by lia. rewrite Z.rem_mod_nonneg by lia. rewrite (u32_id (_ mod _)) by lia.
      rewrite (u32_id (th + _)) by lia. fold d. rewrite (c_enc_digit ch d) by (auto; unfold d; lia). reflexivity. }
    specialize (IH (o ++ [encode_digit d]) rest1 n delta h b bias j m ((q - th) / (36 - th)) (u32 (k + 36)) (Some th) B1 ltac:(lia) Hb DR (u32_range _)). cbv zeta in IH.
    assert (NEXT : forall x, R (SSeq e_var (nth 1 e_code SSkip)) (mkst (at_ n delta h b (Some bias) j m (Some ((q - th) / (36 - th))) (Some (u32 (k + 36))) (Some th) (o ++ [encode_digit d])) (ms (map Some (o ++ [encode_digit d]) ++ rest1))) x ->
      R (SSeq e_var (nth 1 e_code SSkip)) st x).
    { intros x Y. eapply runs_seq_loop; [exact mono1|ev| | | |exact Y]; [cc; discriminate| |].
      - apply X1. sq; [eapply (runs_if rt cl mono1); [ev|]; cc; rewrite QT; cbn; apply runs_skip|]. sq; [exact X|].
        sx. rewrite (u32_id (36 - th)) by lia. replace (36 - th =? 0) with false by lia. cc. rewrite (u32_id (q - th)) by lia. rewrite quot_div by lia. rewrite (u32_id (_ / _)) by lia. reflexivity.
      - sx. }
    destruct (enc_varint fuel cap mo (o ++ [encode_digit d]) bias _ _) as [o'|rc| |]; [| |exact I|exact I].
    - destruct IH as (rest' & q' & k' & t' & A1 & A2 & A3). exists rest', q', k', t'. split; [exact A1|]. split; [exact A2|]. apply NEXT. exact A3.
    - destruct IH as (v & buf & A1 & A2). exists v, buf. split; [exact A1|]. apply NEXT. exact A2.
  Qed.

  (** One pass over the input. *)
  Lemma scan_runs : forall r p o rest n delta h b bias m q k t, l = p ++ r -> zlen (map Some o ++ rest) = cap -> zlen o <= mo -> 0 <= bias < 4294967296 -> 0 <= delta < 4294967296 -> 0 <= h < 4294967296 ->
    let st := mkst (at_ (Some n) (Some delta) (Some h) (Some b) (Some bias) (Some (zlen p)) m q k t o) (ms (map Some o ++ rest)) in
    match enc_scan cap mo b n r (mkest delta o bias h) with
    | Ok st' => exists rest' q' k' t', zlen (map Some (e_out st') ++ rest') = cap /\ zlen (e_out st') <= mo /\ 0 <= e_bias st' < 4294967296 /\ 0 <= e_delta st' < 4294967296 /\ 0 <= e_h st' < 4294967296 /\
        R e_scan st (Norm (mkst (at_ (Some n) (Some (e_delta st')) (Some (e_h st')) (Some b) (Some (e_bias st')) (Some (zlen l)) m q' k' t' (e_out st')) (ms (map Some (e_out st') ++ rest'))))
    | Fail rc => exists v buf, zlen buf = cap /\ R e_scan st (Ret (I32, rc) (mkst v (ms buf)))
    | _ => True
    end.
  Proof.
    induction r as [|c r IH]; intros p o rest n delta h b bias m q k t E HB HO Hb Hd Hh st; cbn [enc_scan e_delta e_out e_bias e_h].
    - rewrite app_nil_r in E. subst p. exists rest, q, k, t. repeat (split; [assumption|]). eapply (runs_loop_end rt cl mono1); [ev|]. cc. rewrite Z.ltb_irrefl. reflexivity.
    - destruct (e_cell p c r E) as (IC & Hc & Hp). assert (LT : (zlen p <? zlen l) = true) by lia. assert (P1 : zlen (p ++ [c]) = zlen p + 1) by (rewrite zlen_app; reflexivity).
      assert (STOP : forall v st', R (loop_body e_scan) st (Ret v st') -> R e_scan st (Ret v st')).
      { intros v st' X. eapply (runs_loop_stop rt cl mono1 _ _ _ _ _ _ (Ret _ _)); [ev| |exact X|exact I]. cc. rewrite LT. discriminate. }
      assert (NEXT : forall d1 h1 bi1 q1 k1 t1 o1 rest1 x, R (loop_body e_scan) st (Norm (mkst (at_ (Some n) d1 h1 (Some b) bi1 (Some (zlen p)) m q1 k1 t1 o1) (ms (map Some o1 ++ rest1)))) ->
        R e_scan (mkst (at_ (Some n) d1 h1 (Some b) bi1 (Some (zlen (p ++ [c]))) m q1 k1 t1 o1) (ms (map Some o1 ++ rest1))) x -> R e_scan st x).
      { intros d1 h1 bi1 q1 k1 t1 o1 rest1 x X Y. eapply (runs_loop_next rt cl mono1); [ev| |exact X| |exact Y]; [cc; rewrite LT; discriminate|]. sx. rewrite P1. rewrite (u32_id (zlen p + 1)) by lia. reflexivity. }
      assert (E1 : forall delta (o : list Z) buf, evals rt cl (EBin Lt (EIdx "input" (EVar "j")) (EVar "n")) (mkst (at_ (Some n) delta (Some h) (Some b) (Some bias) (Some (zlen p)) m q k t o) (ms buf))
        (I32, if c <? n then 1 else 0) (mkst (at_ (Some n) delta (Some h) (Some b) (Some bias) (Some (zlen p)) m q k t o) (ms buf))) by (intros; ev; rewrite IC; cc; reflexivity).
      assert (E2 : forall delta (o : list Z) buf, evals rt cl (EBin Eq (EIdx "input" (EVar "j")) (EVar "n")) (mkst (at_ (Some n) delta (Some h) (Some b) (Some bias) (Some (zlen p)) m q k t o) (ms buf))
        (I32, if c =? n then 1 else 0) (mkst (at_ (Some n) delta (Some h) (Some b) (Some bias) (Some (zlen p)) m q k t o) (ms buf))) by (intros; ev; rewrite IC; cc; reflexivity).
      pose proof (u32_range (delta + 1)) as UR.
      assert (FST : match (if c <? n then let d := u32 (delta + 1) in if d =? 0 then Fail IDN2_PUNYCODE_OVERFLOW else Ok d else Ok delta) with
        | Ok d => 0 <= d < 4294967296 /\ forall tl x, R tl (mkst (at_ (Some n) (Some d) (Some h) (Some b) (Some bias) (Some (zlen p)) m q k t o) (ms (map Some o ++ rest))) x -> R (SSeq (nth 0 (flat (loop_body e_scan)) SSkip) tl) st x
        | Fail rc => exists v, R (loop_body e_scan) st (Ret (I32, rc) (mkst v (ms (map Some o ++ rest))))
        | _ => False end).
      { cbv zeta. destruct (c <? n) eqn:CN.
        - destruct (u32 (delta + 1) =? 0) eqn:D0.
          + eexists. eapply (runs_seq_stop rt cl); [|exact I]. eapply (runs_if rt cl mono1); [apply E1|]. cbn. eapply (runs_if rt cl mono1); [ev|]. cc. rewrite D0. cbn. eapply (runs_ret rt cl). ev.
          + split; [exact UR|]. intros tl x X. sq; [|exact X]. eapply (runs_if rt cl mono1); [apply E1|]. cbn. eapply (runs_if rt cl mono1); [ev|]. cc. rewrite D0. cbn. apply runs_skip.
        - split; [exact Hd|]. intros tl x X. sq; [|exact X]. eapply (runs_if rt cl mono1); [apply E1|]. cbn. apply runs_skip. }
      destruct (if c <? n then let d := u32 (delta + 1) in if d =? 0 then Fail IDN2_PUNYCODE_OVERFLOW else Ok d else Ok delta) as [d|rc| |]; cbn [bind]; [| |exact I|exact I].
      2: { destruct FST as (v & X). exists v, (map Some o ++ rest). split; [exact HB|]. apply STOP. exact X. }
      destruct FST as (HD & FST). destruct (c =? n) eqn:CN.
      + pose proof (e_varint_runs 64 o rest (Some n) (Some d) (Some h) (Some b) bias (Some (zlen p)) m d 36 t HB HO Hb HD ltac:(lia)) as V. cbv zeta in V.
        assert (S2 : forall tl x, R (SSeq (SSeq e_var (nth 1 e_code SSkip)) tl) (mkst (at_ (Some n) (Some d) (Some h) (Some b) (Some bias) (Some (zlen p)) m (Some d) (Some 36) t o) (ms (map Some o ++ rest))) x ->
          R (SSeq (nth 0 e_code SSkip) (SSeq (nth 1 e_code SSkip) tl)) (mkst (at_ (Some n) (Some d) (Some h) (Some b) (Some bias) (Some (zlen p)) m q k t o) (ms (map Some o ++ rest))) x).
        { intros tl x (f & X & NX). exists f. split; [|exact NX]. rewrite <- X. cbn [exec nth e_code]. cbn [after obind eval]. unfold int. cbn. rewrite <- after_after. reflexivity. }
        assert (S3 : forall tl x, R tl (mkst (at_ (Some n) (Some d) (Some h) (Some b) (Some bias) (Some (zlen p)) m q k t o) (ms (map Some o ++ rest))) x -> tl = then_part (second (loop_body e_scan)) -> R (loop_body e_scan) st x).
        { intros tl x X ->. apply FST. eapply (runs_if rt cl mono1); [apply E2|]. cbn. exact X. }
        destruct (enc_varint 64 cap mo o bias d 36) as [o1|rc| |]; cbn [bind]; [| |exact I|exact I].
        2: { destruct V as (v & buf & A1 & A2). exists v, buf. split; [exact A1|]. apply STOP. eapply S3; [|reflexivity]. apply S2. eapply (runs_seq_stop rt cl); [exact A2|exact I]. }
        destruct V as (rest1 & q1 & k1 & t1 & A1 & A2 & A3). pose proof (adapt_total d (u32 (h + 1)) (h =? b)) as AT.
        destruct (adapt d (u32 (h + 1)) (h =? b)) as [bias'|rc| |] eqn:AD; cbn [bind]; [|elim AT|exact I|exact I].
        pose proof (adapt_range _ _ _ _ HD (u32_range (h + 1)) AD) as Hb'. destruct (c_adapt_ok ch _ _ _ _ HD (u32_range (h + 1)) AD) as (na & CA).
        specialize (IH (p ++ [c]) o1 rest1 n 0 (u32 (h + 1)) b bias' m q1 k1 t1 ltac:(rewrite <- app_assoc; exact E) A1 A2 Hb' ltac:(lia) (u32_range _)). cbv zeta in IH.
        assert (XX : R (loop_body e_scan) st (Norm (mkst (at_ (Some n) (Some 0) (Some (u32 (h + 1))) (Some b) (Some bias') (Some (zlen p)) m q1 k1 t1 o1) (ms (map Some o1 ++ rest1))))).
        { eapply S3; [|reflexivity]. apply S2. sq; [exact A3|]. sq; [eapply (runs_exp rt cl); exists na; cbn; uc; rewrite CA; cbn; reflexivity|]. sq; [sx|sx]. }
        destruct (enc_scan cap mo b n r (mkest 0 o1 bias' (u32 (h + 1)))) as [st'|rc| |]; [| |exact I|exact I].
        * destruct IH as (rest' & q' & k' & t' & B1 & B2 & B3 & B4 & B5 & B6). exists rest', q', k', t'. repeat (split; [assumption|]). eapply NEXT; [exact XX|exact B6].
        * destruct IH as (v & buf & B1 & B2). exists v, buf. split; [exact B1|]. eapply NEXT; [exact XX|exact B2].
      + specialize (IH (p ++ [c]) o rest n d h b bias m q k t ltac:(rewrite <- app_assoc; exact E) HB HO Hb HD Hh). cbv zeta in IH.
        assert (XX : R (loop_body e_scan) st (Norm (mkst (at_ (Some n) (Some d) (Some h) (Some b) (Some bias) (Some (zlen p)) m q k t o) (ms (map Some o ++ rest))))).
        { apply FST. eapply (runs_if rt cl mono1); [apply E2|]. cbn. apply runs_skip. }
        destruct (enc_scan cap mo b n r (mkest d o bias h)) as [st'|rc| |]; [| |exact I|exact I].
        * destruct IH as (rest' & q' & k' & t' & B1 & B2 & B3 & B4 & B5 & B6). exists rest', q', k', t'. repeat (split; [assumption|]). eapply NEXT; [exact XX|exact B6].
        * destruct IH as (v & buf & B1 & B2). exists v, buf. split; [exact B1|]. eapply NEXT; [exact XX|exact B2].
  Qed.

  Lemma fold_range : forall r n m, Forall (fun c => 0 <= c < 4294967296) r -> 0 <= m < 4294967296 -> 0 <= fold_left (fun m c => if (n <=? c) && (c <? m) then c else m) r m < 4294967296.
  Proof. induction r as [|c r IH]; intros n m F H; cbn [fold_left]; [exact H|]. inversion F; subst. apply IH; [assumption|]. destruct ((n <=? c) && (c <? m)); assumption. Qed.

  Lemma e_main_runs : forall fuel o rest n delta h b bias j m q k t, zlen (map Some o ++ rest) = cap -> zlen o <= mo -> 0 <= n < 4294967296 -> 0 <= bias < 4294967296 -> 0 <= delta < 4294967296 -> 0 <= h < 4294967296 ->
    let st := mkst (at_ (Some n) (Some delta) (Some h) (Some b) (Some bias) j m q k t o) (ms (map Some o ++ rest)) in
    match enc_main fuel cap mo b l n (mkest delta o bias h) with
    | Ok o' => exists rest' n' d' h' bi' j' m' q' k' t', zlen (map Some o' ++ rest') = cap /\ zlen o' <= mo /\
        R (e_main ch) st (Norm (mkst (at_ n' d' h' (Some b) bi' j' m' q' k' t' o') (ms (map Some o' ++ rest'))))
    | Fail rc => exists v buf, zlen buf = cap /\ R (e_main ch) st (Ret (I32, rc) (mkst v (ms buf)))
    | _ => True
    end.
  Proof.
    induction fuel as [|fuel IH]; intros o rest n delta h b bias j m q k t HB HO Hn Hb Hd Hh st; cbn [enc_main e_delta e_out e_bias e_h].
    { destruct (h <? zlen l) eqn:HL; [exact I|]. exists rest, (Some n), (Some delta), (Some h), (Some bias), j, m, q, k, t. split; [exact HB|]. split; [exact HO|].
      eapply (runs_loop_end rt cl mono1); [ev|]. cc. rewrite HL. reflexivity. }
    destruct (h <? zlen l) eqn:HL.
    2: { exists rest, (Some n), (Some delta), (Some h), (Some bias), j, m, q, k, t. split; [exact HB|]. split; [exact HO|].
      eapply (runs_loop_end rt cl mono1); [ev|]. cc. rewrite HL. reflexivity. }
    assert (STOP : forall v st', R (loop_body (e_main ch)) st (Ret v st') -> R (e_main ch) st (Ret v st')).
    { intros v st' X. eapply (runs_loop_stop rt cl mono1 _ _ _ _ _ _ (Ret _ _)); [ev| |exact X|exact I]. cc. rewrite HL. discriminate. }
    assert (L0 : 0 <= zlen l) by (unfold zlen; lia). rewrite (u32_id (h + 1)) by lia. replace (h + 1 =? 0) with false by lia.
    pose proof (next_runs l [] n 4294967295 (Some delta) (Some h) (Some b) (Some bias) q k t o (map Some o ++ rest) eq_refl) as NX.
    pose proof (fold_range l n 4294967295 BL ltac:(lia)) as FR. change (fold_left (fun m c => if (n <=? c) && (c <? m) then c else m) l 4294967295) with (enc_next n l) in *.
    set (m' := enc_next n l) in *. change (zlen (@nil Z)) with 0 in NX.
    set (st1 := mkst (at_ (Some n) (Some delta) (Some h) (Some b) (Some bias) (Some (zlen l)) (Some m') q k t o) (ms (map Some o ++ rest))) in *.
    assert (X1 : forall tl x, R tl st1 x -> R (SSeq (nth 0 e_round SSkip) tl) st x).
    { intros tl x X. sq; [|exact X]. sq; [sq; sx|exact NX]. }
    rewrite (u32_id (maxint - delta)) by (unfold maxint; lia). pose proof (u32_range (m' - n)) as UR. pose proof (div_range (maxint - delta) (h + 1) ltac:(unfold maxint; lia) ltac:(lia)) as DR.
    assert (EV : evals rt cl (EBin Gt (EBin Sub (EVar "m") (EVar "n")) (EBin Div (EBin Sub (ECast U32 (EBin Sub (int 0) (int 1))) (EVar "delta")) (EBin Add (EVar "h") (int 1)))) st1
      (I32, if (maxint - delta) / (h + 1) <? u32 (m' - n) then 1 else 0) st1).
    { ev. rewrite (u32_id (h + 1)) by lia. replace (h + 1 =? 0) with false by lia. cc. rewrite (u32_id (4294967295 - delta)) by lia. rewrite quot_div by lia. rewrite (u32_id (_ / _)) by exact DR. reflexivity. }
    destruct ((maxint - delta) / (h + 1) <? u32 (m' - n)) eqn:OV.
    { eexists. exists (map Some o ++ rest). split; [exact HB|]. apply STOP, X1. eapply (runs_seq_stop rt cl); [|exact I]. eapply (runs_if rt cl mono1); [exact EV|]. cbn. eapply (runs_ret rt cl). ev. }
    set (d := u32 (delta + u32 (u32 (m' - n) * (h + 1)))). pose proof (u32_range (delta + u32 (u32 (m' - n) * (h + 1)))) as Hd'. fold d in Hd'.
    pose proof (scan_runs l [] o rest m' d h b bias (Some m') q k t eq_refl HB HO Hb Hd' Hh) as SC. cbv zeta in SC. change (zlen (@nil Z)) with 0 in SC.
    assert (X2 : forall tl x, R (SSeq e_scan tl) (mkst (at_ (Some m') (Some d) (Some h) (Some b) (Some bias) (Some 0) (Some m') q k t o) (ms (map Some o ++ rest))) x ->
      R (SSeq (nth 1 e_round SSkip) (SSeq (nth 2 e_round SSkip) (SSeq (nth 3 e_round SSkip) (SSeq (nth 4 e_round SSkip) tl)))) st1 x).
    { intros tl x X. sq; [eapply (runs_if rt cl mono1); [exact EV|]; cbn; apply runs_skip|]. sq; [sx|]. sq; [sx|].
      destruct X as (f & X & NXX). exists f. split; [|exact NXX]. rewrite (u32_id (h + 1)) by lia. exact X. }
    destruct (enc_scan cap mo b m' l (mkest d o bias h)) as [st'|rc| |]; cbn [bind]; [| |exact I|exact I].
    2: { destruct SC as (v & buf & A1 & A2). exists v, buf. split; [exact A1|]. apply STOP, X1, X2. eapply (runs_seq_stop rt cl); [exact A2|exact I]. }
    destruct SC as (rest1 & q1 & k1 & t1 & A1 & A2 & A3 & A4 & A5 & A6).
    specialize (IH (e_out st') rest1 (u32 (m' + 1)) (u32 (e_delta st' + 1)) (e_h st') b (e_bias st') (Some (zlen l)) (Some m') q1 k1 t1 A1 A2 (u32_range _) A3 (u32_range _) A5). cbv zeta in IH.
    assert (NEXT : forall x, R (e_main ch) (mkst (at_ (Some (u32 (m' + 1))) (Some (u32 (e_delta st' + 1))) (Some (e_h st')) (Some b) (Some (e_bias st')) (Some (zlen l)) (Some m') q1 k1 t1 (e_out st')) (ms (map Some (e_out st') ++ rest1))) x ->
      R (e_main ch) st x).
    { intros x X. eapply (runs_loop_next rt cl mono1); [ev| | |apply runs_skip|exact X]; [cc; rewrite HL; discriminate|]. apply X1, X2. sq; [exact A6|]. sq; [sx|sx]. }
    destruct (enc_main fuel cap mo b l _ _) as [o'|rc| |]; [| |exact I|exact I].
    - destruct IH as (rest' & n2 & d2 & h2 & bi2 & j2 & m2 & q2 & k2 & t2 & B1 & B2 & B3). exists rest', n2, d2, h2, bi2, j2, m2, q2, k2, t2. split; [exact B1|]. split; [exact B2|]. apply NEXT. exact B3.
    - destruct IH as (v & buf & B1 & B2). exists v, buf. split; [exact B1|]. apply NEXT. exact B2.
  Qed.
End Encode.

Section Top.
  Variable ch : cty.
  Hypothesis CH : ch = I8 \/ ch = U8.
  Notation rt := (types (puny_program ch)).
  Notation cl := (calls (puny_program ch) 1).
  Notation R := (runs rt cl).
  Notation mono1 := (mono1 ch).
  Ltac sq := eapply (runs_seq rt cl mono1).
  Ltac sx := eapply (runs_exp rt cl); ev.
  Ltac u64s := repeat match goal with |- context [u64 ?z] => rewrite (u64_id z) by (unfold two64 in *; lia) end.
  Variable l : list Z.
  Hypothesis BL : Forall (fun c => 0 <= c < 4294967296) l.
  Hypothesis LL : zlen l < two64.
  Variables (mo : Z) (buf : list (option Z)).
  Hypothesis MO : 0 <= mo < two64.
  Hypothesis CAP : mo <= zlen buf.
  Definition ems' (z : Z) (buf : list (option Z)) : list (string * (cty * list (option Z))) := [("input", (U32, map Some l)); ("output_length", (U64, [Some z])); ("output", (ch, buf))].

  Lemma encode_body : let st := mkst (declare (c_punycode_encode ch) [(U64, zlen l)]) (ms ch l mo buf) in
    match puny_encode l mo (zlen buf) with
    | Ok r => exists rest v, zlen r + zlen rest = zlen buf /\ zlen r <= mo /\ R (f_body (c_punycode_encode ch)) st (Ret (I32, 0) (mkst v (ems' (zlen r) (map Some r ++ rest))))
    | Fail rc => exists v buf', zlen buf' = zlen buf /\ R (f_body (c_punycode_encode ch)) st (Ret (I32, rc) (mkst v (ms ch l mo buf')))
    | _ => True
    end.
  Proof.
    intros st. assert (L0 : 0 <= zlen l) by (unfold zlen; lia).
    assert (D : st = mkst (vs l None None None None None None None None None None None None None) (ms ch l mo buf)) by (unfold st; cbn; u64s; reflexivity). rewrite D. clear D st.
    set (st := mkst _ _). unfold puny_encode. unfold maxint.
    assert (EV : evals rt cl (EBin Gt (EVar "input_length_orig") (ECast U32 (EBin Sub (int 0) (int 1)))) st (I32, if 4294967295 <? zlen l then 1 else 0) st) by ev.
    destruct (4294967295 <? zlen l) eqn:BIG.
    { eexists. exists buf. split; [reflexivity|]. eapply (runs_seq_stop rt cl); [|exact I]. eapply (runs_if rt cl mono1); [exact EV|]. cbn. eapply (runs_ret rt cl). ev. }
    assert (LL' : zlen l < 4294967296) by lia.
    pose proof (basic_runs ch CH l BL LL' mo (zlen buf) MO CAP l [] [] buf (Some 128) (Some 0) None None (Some 72) None None None None eq_refl eq_refl ltac:(lia) ltac:(auto)) as B. cbv zeta in B.
    change (zlen (@nil Z)) with 0 in B. cbn [map app] in B.
    assert (X1 : forall tl x, R (SSeq (e_basic ch) tl) (mkst (vs l (Some (zlen l)) (Some 128) (Some 0) None None (Some 72) (Some 0) None None None None (Some 0) (Some mo)) (ms ch l mo buf)) x ->
      R (SSeq (nth 0 (e_items ch) SSkip) (SSeq (nth 1 (e_items ch) SSkip) (SSeq (nth 2 (e_items ch) SSkip) (SSeq (nth 3 (e_items ch) SSkip) (SSeq (nth 4 (e_items ch) SSkip) (SSeq (nth 5 (e_items ch) SSkip)
        (SSeq (nth 6 (e_items ch) SSkip) (SSeq (nth 7 (e_items ch) SSkip) tl)))))))) st x).
    { intros tl x X. sq; [eapply (runs_if rt cl mono1); [exact EV|]; cbn; apply runs_skip|]. sq; [sx; rewrite ?(u32_id (zlen l)) by lia; reflexivity|]. sq; [sx|]. sq; [sx|]. sq; [sx|].
      sq; [sx; change (cell [Some mo] 0) with (Val mo); cc; reflexivity|]. sq; [sx|]. destruct X as (f & X & NX). exists f. split; [|exact NX]. rewrite (u32_id (zlen l)) by lia. exact X. }
    destruct (enc_basic (zlen buf) mo l []) as [o|rc| |]; cbn [bind]; [| |exact I|exact I].
    2: { destruct B as (v & buf' & A1 & A2). exists v, buf'. split; [exact A1|]. apply X1. eapply (runs_seq_stop rt cl); [exact A2|exact I]. }
    destruct B as (rest & A1 & A2 & A3 & A4). assert (O0 : 0 <= zlen o) by (unfold zlen; lia). rewrite (u32_id (zlen o)) by lia.
    assert (X2 : exists o' rest', (if 0 <? zlen o then put (zlen buf) o delimiter else Ok o) = Ok o' /\ zlen (map Some o' ++ rest') = zlen buf /\ zlen o' <= mo /\
      forall tl x, R tl (mkst (vs l (Some (zlen l)) (Some 128) (Some 0) (Some (zlen o)) (Some (zlen o)) (Some 72) (Some (zlen l)) None None None None (Some (zlen o')) (Some mo)) (ms ch l mo (map Some o' ++ rest'))) x ->
        R (SSeq (nth 8 (e_items ch) SSkip) (SSeq (nth 9 (e_items ch) SSkip) tl)) (mkst (vs l (Some (zlen l)) (Some 128) (Some 0) None None (Some 72) (Some (zlen l)) None None None None (Some (zlen o)) (Some mo)) (ms ch l mo (map Some o ++ rest))) x).
    { assert (H8 : R (nth 8 (e_items ch) SSkip) (mkst (vs l (Some (zlen l)) (Some 128) (Some 0) None None (Some 72) (Some (zlen l)) None None None None (Some (zlen o)) (Some mo)) (ms ch l mo (map Some o ++ rest)))
         (Norm (mkst (vs l (Some (zlen l)) (Some 128) (Some 0) (Some (zlen o)) (Some (zlen o)) (Some 72) (Some (zlen l)) None None None None (Some (zlen o)) (Some mo)) (ms ch l mo (map Some o ++ rest))))).
      { sx. rewrite !(u32_id (zlen o)) by lia. reflexivity. }
      destruct (0 <? zlen o) eqn:P.
      - assert (HM : zlen o < mo) by (destruct A3 as [-> | A3]; [change (zlen (@nil Z)) with 0 in P; lia|exact A3]).
        unfold put. replace (zlen o <? zlen buf) with true by lia.
        destruct (store_runs ch CH l mo (zlen buf) MO CAP (int 45) 45 I32 o rest (Some 128) (Some 0) (Some (zlen o)) (Some (zlen o)) (Some 72) (Some (zlen l)) None None None None HM A1 ltac:(lia) ltac:(auto) eq_refl) as (rest' & B1 & B2 & B3).
        exists (o ++ [45]), rest'. split; [reflexivity|]. split; [exact B1|]. split; [lia|]. intros tl x X. sq; [exact H8|]. sq; [eapply (runs_if rt cl mono1); [ev|]; cc; rewrite P; cbn; exact B3|]. exact X.
      - exists o, rest. split; [reflexivity|]. split; [exact A1|]. split; [lia|]. intros tl x X. sq; [exact H8|]. sq; [eapply (runs_if rt cl mono1); [ev|]; cc; rewrite P; cbn; apply runs_skip|]. exact X. }
    destruct X2 as (o' & rest' & -> & B1 & B2 & X2). cbn [bind]. change initial_n with 128. change initial_bias with 72.
    pose proof (e_main_runs ch CH l BL LL' mo (zlen buf) MO CAP (S (length l)) o' rest' 128 0 (zlen o) (zlen o) 72 (Some (zlen l)) None None None None B1 B2 ltac:(lia) ltac:(lia) ltac:(lia) ltac:(lia)) as M. cbv zeta in M.
    destruct (enc_main (S (length l)) (zlen buf) mo (zlen o) l 128 _) as [r|rc| |]; [| |exact I|exact I].
    - destruct M as (rest2 & n2 & d2 & h2 & bi2 & j2 & m2 & q2 & k2 & t2 & C1 & C2 & C3). exists rest2. eexists. split; [rewrite zlen_app, zlen_map in C1; exact C1|]. split; [exact C2|].
      apply X1. sq; [exact A4|]. apply X2. sq; [exact C3|]. sq; [|eapply (runs_ret rt cl); ev]. exists O. split; [|discriminate]. cbn. reflexivity.
    - destruct M as (v & buf' & C1 & C2). exists v, buf'. split; [exact C1|]. apply X1. sq; [exact A4|]. apply X2. eapply (runs_seq_stop rt cl); [exact C2|exact I].
  Qed.
End Top.
