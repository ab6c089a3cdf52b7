(** The text of register.c, with an A-label. *)
From Coq Require Import String.
From Verif Require Import Base PunyBase Uenv DataTypes SpecUtf8 SpecNfc SpecLookup SpecRegister Utf8 Utf8Proofs Puny PunyTop Idna Lookup Api ApiProofs Register LabelProofs LookupIdem CostPuny CostLabel NonZero RegisterProofs RegisterTop
  CLang CLogic CLeaf CDecode CEncode CLabel CBidi CMapData CLookup CRegister SpecCPuny SpecCRegister CLookupMap CLookupName CLabelFun CUnicodeRun CRegisterRun.
Local Open Scope string_scope.
Local Open Scope list_scope.
Local Open Scope Z_scope.
Arguments calls : simpl never.
Arguments types : simpl never.
Arguments register_program : simpl never.
Arguments Z.land : simpl never.
Arguments Z.lor : simpl never.
Arguments ace_prefix : simpl never.
Arguments cstr : simpl never.
Arguments cell : simpl never.
Arguments set_cell : simpl never.

Lemma upto0_no0 : forall l, ~ In 0 (upto0 l).
Proof. induction l as [|c l IH]; [tauto|]. cbn [upto0]. destruct (c =? 0) eqn:Q; [tauto|]. cbn [In]. intros [W|W]; [lia|tauto]. Qed.
Lemma c_string_no0 : forall s, c_string s -> ~ In 0 s. Proof. intros s CS Q. apply (proj1 (Forall_forall _ _) CS) in Q. lia. Qed.
Lemma reg_u_no0 : forall U s f t, c_string s -> reg_ulabel U s f = Ok t -> ~ In 0 t.
Proof.
  intros U s f t CS E. unfold reg_ulabel in E. destruct (ascii_p s). { destruct (LABEL_MAX <? zlen s); [discriminate E|]. injection E as <-. now apply c_string_no0. }
  apply bind_ok in E. destruct E as (l & _ & E). apply bind_ok in E. destruct E as (? & _ & E). apply bind_ok in E. destruct E as (e & _ & E). destruct (_ <=? zlen e); [discriminate E|]. apply (f_equal (fun o => match o with Ok q => q | _ => [] end)) in E. subst t. apply upto0_no0.
Qed.

Section Reg.
  Variable U : uenv.
  Variable reg : list Z -> Z + list Z.
  Notation P := (register_program U reg).
  Notation rt := (types P).
  Notation cl := (calls P 0).
  Notation R := (runs rt cl).
  Notation mono := (rg_mono U reg).
  Variables (u : option (list Z)) (a : list Z) (has_ : bool).
  Hypothesis K : nfc_ok U.
  Hypothesis CU : match u with Some x => c_string x | None => True end.
  Hypothesis CA : c_string a.
  Hypothesis LA : zlen a < 4611686018427387904.
  Hypothesis HR : forall x, c_string x -> zlen x <= 236 -> match reg_ulabel U x 0 with Ok t => reg x = inr t | Fail e => reg x = inl e | _ => True end.
  Definition hu : Z := match u with Some _ => 1 | None => 0 end.
  Definition amem (u32 u8 tmp name : list (option Z)) : list (string * carr) :=
    [("ulabel", (U8, ulabel_array u)); ("alabel", (U8, map Some (a ++ [0]))); ("u32", (U32, u32)); ("u8", (U8, u8)); ("tmp", (U8, tmp)); ("insertname", (U8, name))].
  Definition sa (al ul32 u8l rc k : option Z) (u32 u8 tmp name : list (option Z)) : cst :=
    mkst [("has_ulabel", (I32, Some hu)); ("has_insertname", (I32, Some (if has_ then 1 else 0))); ("alabellen", (U64, al)); ("u32len", (U64, ul32)); ("u8len", (U64, u8l)); ("rc", (I32, rc)); ("k", (U64, k))] (amem u32 u8 tmp name).
  Definition a_done (e : Z) (r : Z + list Z) (name : list (option Z)) (st0 : cst) (body : stmt) : Prop :=
    exists st u32' u8' tmp', R body st0 (Ret (I32, e) st) /\ arrs st = amem u32' u8' tmp' (inserted has_ r name).
  Lemma a_seq : forall e r name st0 st1 s1 s2, R s1 st0 (Norm st1) -> a_done e r name st1 s2 -> a_done e r name st0 (SSeq s1 s2).
  Proof. intros e r name st0 st1 s1 s2 H (st & x & y & z & A & B). exists st, x, y, z. split; [|exact B]. eapply (runs_seq rt cl mono); [exact H|exact A]. Qed.
  Lemma a_stop : forall e r name st0 s1 s2, a_done e r name st0 s1 -> a_done e r name st0 (SSeq s1 s2).
  Proof. intros e r name st0 s1 s2 (st & x & y & z & A & B). exists st, x, y, z. split; [|exact B]. eapply (runs_seq_stop rt cl); [exact A|exact Logic.I]. Qed.
  Lemma a_ret : forall z r c v al ul32 u8l rc k u32 u8 tmp name s2, evals rt cl c (sa al ul32 u8l rc k u32 u8 tmp name) v (sa al ul32 u8l rc k u32 u8 tmp name) -> snd v <> 0 -> r = int z \/ r = EVar "rc" /\ rc = Some z ->
    a_done z (inl z) name (sa al ul32 u8l rc k u32 u8 tmp name) (SSeq (SIf c (SReturn r) SSkip) s2).
  Proof.
    intros z r c v al ul32 u8l rc k u32 u8 tmp name s2 E NZ HZ. apply a_stop. exists (sa al ul32 u8l rc k u32 u8 tmp name), u32, u8, tmp. split; [|reflexivity]. eapply (runs_if rt cl mono); [exact E|]. replace (snd v =? 0) with false by lia.
    eapply (runs_ret rt cl). exists O. destruct HZ as [-> |(-> & ->)]; cc; reflexivity.
  Qed.
  Lemma a_pass : forall c v s1 st, evals rt cl c st v st -> snd v = 0 -> R (SIf c s1 SSkip) st (Norm st).
  Proof. intros c v s1 st E Z0. eapply (runs_if rt cl mono); [exact E|]. rewrite Z0. apply runs_skip. Qed.

  Lemma a_no0 : ~ In 0 a. Proof. apply c_string_no0, CA. Qed.
  Lemma a_byte : forall i c r, a = i ++ c :: r -> forall st v, assoc "alabel" (arrs st) = Some (U8, map Some (a ++ [0])) -> 
    evals rt cl (EBin Ne (EIdx "alabel" (int (zlen i))) (int v)) st (I32, if negb (c =? v) then 1 else 0) st.
  Proof.
    intros i c r E st v AS. eapply (ev_bin rt cl mono _ _ _ _ (U8, c) (I32, v)); [|exists O; reflexivity|cbn; unfold cast; cbn; destruct (c =? v); reflexivity].
    eapply (ev_idx rt cl _ _ _ _ _ (I32, zlen i)); [exact AS|exists O; reflexivity|]. cbn [snd]. apply (cell_nth _ _ c (r ++ [0])). rewrite E, <- app_assoc. reflexivity.
  Qed.
  Lemma areg_runs : forall u32 u8 tmp name, zlen u32 = 1020 -> zlen u8 = 256 -> zlen tmp = 64 -> zlen name = 64 ->
    match reg_alabel U u a with
    | Ok t => a_done 0 (inr t) name (sa None None None None None u32 u8 tmp name) (f_body c_register_a)
    | Fail e => a_done e (inl e) name (sa None None None None None u32 u8 tmp name) (f_body c_register_a)
    | _ => True
    end.
  Proof.
    intros u32 u8 tmp name LU L8 LT LN. pose proof (z0 _ a) as A0. assert (PA : part (map Some (a ++ [0])) 0 (zlen a) = Val a) by (rewrite map_app; exact (part_front a _)).
    set (S0 := sa None None None None None u32 u8 tmp name). set (S1 := sa (Some (zlen a)) (Some 252) None None None u32 u8 tmp name).
    assert (H1 : forall e r st, a_done e r name S1 st -> a_done e r name S0 (SSeq (SExp (EAsg "alabellen" (ECall "strlen" ["alabel"] []))) (SSeq (SExp (EAsg "u32len" (EBin Mul (int 63) (int 4)))) st))).
    { intros e r st H. eapply a_seq. { eapply (runs_exp rt cl). exists O. unfold S0. cc. rewrite g_strlen, cstr_whole by exact a_no0. cc. reflexivity. }
      eapply a_seq; [|exact H]. eapply (runs_exp rt cl). exists O. cc. reflexivity. }
    assert (HB : evals rt cl (EBin Gt (EVar "alabellen") (int 63)) S1 (I32, if 63 <? zlen a then 1 else 0) S1) by (exists O; unfold S1; cc; rewrite ?Z.gtb_ltb; destruct (63 <? zlen a); reflexivity).
    assert (HC : evals rt cl (EBin Le (EVar "alabellen") (int 4)) S1 (I32, if zlen a <=? 4 then 1 else 0) S1) by (exists O; unfold S1; cc; destruct (zlen a <=? 4); reflexivity).
    assert (HD : evals rt cl (ENot (ECall "_idn2_ascii_p" ["alabel"] [EVar "alabellen"])) S1 (I32, if negb (ascii_p a) then 1 else 0) S1).
    { exists O. unfold S1. cc. rewrite g_ascii. unfold on_part. rewrite PA. cbn. destruct (ascii_p a); reflexivity. }
    change (f_body c_register_a) with (SSeq (SExp (EAsg "alabellen" (ECall "strlen" ["alabel"] []))) (SSeq (SExp (EAsg "u32len" (EBin Mul (int 63) (int 4)))) (after 2 (f_body c_register_a)))). cbn -[fill strdup int a_done reg_alabel].
    unfold reg_alabel, LABEL_MAX, DOMAIN_MAX.
    destruct (63 <? zlen a) eqn:L63. { apply H1. eapply a_ret; [exact HB|discriminate|left; reflexivity]. }
    destruct (zlen a <=? 4) eqn:L4. { apply H1. eapply a_seq; [eapply a_pass; [exact HB|reflexivity]|]. eapply a_ret; [exact HC|discriminate|left; reflexivity]. }
    remember (firstn 4 a) as pre eqn:PRE. remember (skipn 4 a) as q eqn:SK.
    assert (AQ : a = pre ++ q) by (subst; symmetry; apply firstn_skipn). assert (exists c0 c1 c2 c3, pre = [c0; c1; c2; c3]) as (c0 & c1 & c2 & c3 & E4).
    { clear - PRE L4. destruct a as [|c0 [|c1 [|c2 [|c3 r] ] ] ]; try (exfalso; unfold zlen in L4; cbn in L4; lia). exists c0, c1, c2, c3. exact PRE. }
    clear PRE SK.
    assert (HE : evals rt cl (EOr (EOr (EOr (EBin Ne (EIdx "alabel" (int 0)) (int 120)) (EBin Ne (EIdx "alabel" (int 1)) (int 110))) (EBin Ne (EIdx "alabel" (int 2)) (int 45))) (EBin Ne (EIdx "alabel" (int 3)) (int 45))) S1
      (I32, if negb (list_eqb pre ace_prefix) then 1 else 0) S1).
    { replace (negb (list_eqb pre ace_prefix)) with (((negb (c0 =? 120) || negb (c1 =? 110)) || negb (c2 =? 45)) || negb (c3 =? 45)) by (rewrite E4; unfold ace_prefix; cbn; destruct (c0 =? 120), (c1 =? 110), (c2 =? 45), (c3 =? 45); reflexivity).
      rewrite E4 in AQ. repeat (apply (ev_or rt cl mono); [|intros _]);
        [apply (a_byte [] c0 _ AQ)|apply (a_byte [c0] c1 _ AQ)|apply (a_byte [c0; c1] c2 _ AQ)|apply (a_byte [c0; c1; c2] c3 _ AQ)]; reflexivity. }
    assert (H2 : forall e r st, a_done e r name S1 st -> a_done e r name S0 (SSeq (SExp (EAsg "alabellen" (ECall "strlen" ["alabel"] []))) (SSeq (SExp (EAsg "u32len" (EBin Mul (int 63) (int 4))))
      (SSeq (SIf (EBin Gt (EVar "alabellen") (int 63)) (SReturn (int IDN2_TOO_BIG_LABEL)) SSkip) (SSeq (SIf (EBin Le (EVar "alabellen") (int 4)) (SReturn (int IDN2_INVALID_ALABEL)) SSkip) st))))).
    { intros e r st H. apply H1. eapply a_seq; [eapply a_pass; [exact HB|reflexivity]|]. eapply a_seq; [eapply a_pass; [exact HC|reflexivity]|]. exact H. }
    destruct (list_eqb pre ace_prefix) eqn:ACE; cbn [negb] in HE |- *. 2:{ apply H2. eapply a_ret; [exact HE|discriminate|left; reflexivity]. }
    apply list_eqb_iff in ACE. rewrite ACE in AQ. clear ACE E4 pre.
    destruct (ascii_p a); cbn [negb] in HD |- *. 2:{ apply H2. eapply a_seq; [eapply a_pass; [exact HE|reflexivity]|]. eapply a_ret; [exact HD|discriminate|left; reflexivity]. }
    assert (H3 : forall e r st, a_done e r name S1 st -> a_done e r name S1 (SSeq (SIf (EOr (EOr (EOr (EBin Ne (EIdx "alabel" (int 0)) (int 120)) (EBin Ne (EIdx "alabel" (int 1)) (int 110))) (EBin Ne (EIdx "alabel" (int 2)) (int 45))) (EBin Ne (EIdx "alabel" (int 3)) (int 45))) (SReturn (int IDN2_INVALID_ALABEL)) SSkip)
      (SSeq (SIf (ENot (ECall "_idn2_ascii_p" ["alabel"] [EVar "alabellen"])) (SReturn (int IDN2_INVALID_ALABEL)) SSkip) st))).
    { intros e r st H. eapply a_seq; [eapply a_pass; [exact HE|reflexivity]|]. eapply a_seq; [eapply a_pass; [exact HD|reflexivity]|]. exact H. }
    clear HB HC HD HE. pose proof (z0 _ q) as Q0. assert (ZQ : zlen a = 4 + zlen q) by (rewrite AQ, zlen_app; reflexivity).
    assert (U4 : u64 (zlen a - 4) = zlen q) by (rewrite u64_id by (unfold two64; lia); lia).
    assert (PQ : part (map Some (a ++ [0])) 4 (zlen q) = Val q) by (rewrite map_app, AQ; exact (part_more ace_prefix q _)).
    change (63 * 4) with 252. change (255 * 4) with 1020. change (255 + 1) with 256.
    assert (DC : forall arr, zlen arr = 1020 -> dec_call 252 arr q = puny_decode q 252 1020) by (intros arr E; unfold dec_call; rewrite E; reflexivity).
    pose proof (nz_decode q 252 1020) as NZ0. pose proof (decode_safe q 252 1020 ltac:(lia) ltac:(lia) ltac:(unfold two64; lia)) as DS. pose proof (decoded_utf8 q 252 1020) as DU.
    destruct (puny_decode q 252 1020) as [l|e| |] eqn:PD; cbn [bind]; [| |exact Logic.I..].
    2:{ apply H2, H3. unfold S1. eapply a_seq. { eapply (runs_exp rt cl). exists O. cc. rewrite U4, g_dec, (rc_part _ _ _ _ _ PQ), (DC u32 LU). cbn. change (rt "punycode_decode") with I32. cc. reflexivity. }
      eapply (a_ret _ _ _ (I32, if e =? 0 then 0 else 1)); [exists O; cc; change IDN2_OK with 0; destruct (e =? 0); reflexivity| |right; split; reflexivity]. pose proof (NZ0 e eq_refl) as E0. unfold IDN2_OK in E0. cbn [snd]. replace (e =? 0) with false by lia. discriminate. }
    destruct DS as (L252 & _). pose proof (z0 _ l) as L0. set (X := map Some l ++ skipn (length l) u32).
    assert (ZX : zlen X = 1020). { unfold X. rewrite zlen_app, zlen_map. unfold zlen in *. rewrite skipn_length. lia. }
    assert (PL : part X 0 (zlen l) = Val l) by apply part_front.
    set (S2 := sa (Some (zlen a)) (Some (zlen l)) (Some 256) (Some 0) (Some (zlen l)) X u8 tmp name).
    assert (H4 : forall e r st, a_done e r name S2 st -> a_done e r name S1
      (SSeq (SExp (EAsg "rc" (ECall "punycode_decode" ["alabel"; "u32"] [int 4; EBin Sub (EVar "alabellen") (int 4); EVar "u32len"])))
          (SSeq (SIf (EBin Ne (EVar "rc") (int IDN2_OK)) (SReturn (EVar "rc")) SSkip)
          (SSeq (fill "u32" (int 0) (ECall "punycode_decode *output_length" ["alabel"; "u32"] [int 4; EBin Sub (EVar "alabellen") (int 4); EVar "u32len"])
               (ECall "punycode_decode output" ["alabel"; "u32"] [int 4; EBin Sub (EVar "alabellen") (int 4); EVar "u32len"; EVar "k"]))
          (SSeq (SExp (EAsg "u32len" (ECall "punycode_decode *output_length" ["alabel"; "u32"] [int 4; EBin Sub (EVar "alabellen") (int 4); EVar "u32len"])))
          (SSeq (SExp (EAsg "u8len" (int 256))) st)))))).
    { intros e r st H. unfold S1.
      eapply a_seq. { eapply (runs_exp rt cl). exists O. cc. rewrite U4, g_dec, (rc_part _ _ _ _ _ PQ), (DC u32 LU). cbn. change (rt "punycode_decode") with I32. cc. reflexivity. }
      eapply a_seq. { eapply (a_pass _ (I32, 0)); [exists O; cc; reflexivity|reflexivity]. }
      eapply a_seq.
      { refine (fill_runs rt cl mono (fun kk arr => sa (Some (zlen a)) (Some 252) None (Some 0) kk arr u8 tmp name) "u32" (int 0) _ _ 0 l (zlen u32) _ _ _ _ [] u32 None eq_refl _ eq_refl); [| | | |lia].
        - intros kk arr _. eapply (runs_exp rt cl). exists O. cc. reflexivity.
        - intros kk arr B E. exists O. cc. rewrite U4, g_dec_len, (len_part _ _ _ _ q l PQ) by (apply DC; lia). reflexivity.
        - intros kk y arr arr' B C IY E SC. exists O. split; [|discriminate]. cc. rewrite ?(u64_id kk) by (unfold two64 in *; lia). rewrite U4, g_dec_elt, (elt_part _ _ _ _ _ q l PQ) by (apply DC; lia). rewrite C. cbn.
          change (rt "punycode_decode output") with CLang.U32. cbn. cbn in SC. rewrite ?(u64_id kk) by (unfold two64 in *; lia). rewrite SC. reflexivity.
        - intros kk arr B. eapply (runs_exp rt cl). exists O. cc. rewrite (u64_id (kk + 1)) by (unfold two64 in *; lia). reflexivity. }
      cbn [app]. fold X.
      eapply a_seq. { eapply (runs_exp rt cl). exists O. cc. rewrite U4, g_dec_len, (len_part _ _ _ _ q l PQ) by (apply DC; exact ZX). cbn. change (rt "punycode_decode *output_length") with U64. cc. reflexivity. }
      eapply a_seq; [|exact H]. eapply (runs_exp rt cl). exists O. cc. reflexivity. }
    assert (U8v : forall n a b, cl n "u32_to_u8" [(a, 0); (b, zlen l)] [(CLang.U32, X)] = Val (match u32_to_u8 l with Some a => zlen a | None => -1 end)) by (intros n a0 b0; rewrite g_u8; unfold on_part; rewrite PL; reflexivity).
    assert (UE : forall n a b c x j, u32_to_u8 l = Some x -> cl n "u32_to_u8 result" [(a, 0); (b, zlen l); (c, j)] [(CLang.U32, X)] = cell (map Some x) j) by (intros n a0 b0 c x j E; rewrite g_u8_elt; unfold on_part; rewrite PL; cbn [rbind]; unfold ace_of; rewrite E; reflexivity).
    destruct (u32_to_u8 l) as [b|] eqn:E8; cbn [Utf8.conv bind].
    2:{ apply H2, H3, H4. unfold S2. eapply (a_ret _ _ _ (I32, 1)); [exists O; cc; rewrite U8v; cbn; change (rt "u32_to_u8") with I64; cc; reflexivity|discriminate|left; reflexivity]. }
    destruct (DU l b ltac:(lia) ltac:(lia) ltac:(lia) eq_refl E8) as (_ & UB0 & CB & _ & LB & _). rewrite UB0. pose proof (z0 _ b) as B0. replace (256 <=? zlen b) with false by lia. cbv zeta.
    assert (exists x y, skipn (length b) u8 = x :: y) as (x8 & y8 & SK8). { destruct (skipn (length b) u8) as [|x y] eqn:E; [|eauto]. exfalso. apply (f_equal (@length _)) in E. rewrite skipn_length in E. unfold zlen in *. cbn in E. lia. }
    set (B8 := map Some (b ++ [0]) ++ y8).
    assert (CB8 : cstr B8 = Val b) by (apply cstr_front, c_string_no0, CB).
    set (S3 := sa (Some (zlen a)) (Some (zlen l)) (Some (zlen b)) (Some 0) (Some (zlen b)) X B8 tmp name).
    assert (SET8 : set_cell (map Some b ++ skipn (length b) u8) (zlen b) 0 = Val B8).
    { rewrite SK8, (set_c _ x8 y8 0 (zlen b)) by (rewrite zlen_map; reflexivity). unfold B8. rewrite (map_app _ b), <- app_assoc. reflexivity. }
    assert (EU : forall ul k arr, evals rt cl (ECall "u32_to_u8" ["u32"] [int 0; EVar "u32len"]) (sa (Some (zlen a)) (Some (zlen l)) ul (Some 0) k X arr tmp name) (I64, zlen b) (sa (Some (zlen a)) (Some (zlen l)) ul (Some 0) k X arr tmp name)).
    { intros ul k arr. exists O. cc. rewrite U8v. reflexivity. }
    assert (H5 : forall e r st, a_done e r name S3 st -> a_done e r name S2
      (SSeq (SIf (EBin Eq (ECall "u32_to_u8" ["u32"] [int 0; EVar "u32len"]) (EBin Sub (int 0) (int 1))) (SReturn (int IDN2_ENCODING_ERROR)) SSkip)
       (SSeq (SIf (EBin Le (ECast U64 (ECall "u32_to_u8" ["u32"] [int 0; EVar "u32len"])) (EVar "u8len"))
          (fill "u8" (int 0) (ECast U64 (ECall "u32_to_u8" ["u32"] [int 0; EVar "u32len"])) (ECall "u32_to_u8 result" ["u32"] [int 0; EVar "u32len"; EVar "k"])) SSkip)
       (SSeq (SExp (EAsg "u8len" (ECall "u32_to_u8" ["u32"] [int 0; EVar "u32len"]))) (SSeq (SStore "u8" (EVar "u8len") (int 0)) st))))).
    { intros e r st H. unfold S2.
      eapply a_seq. { eapply (a_pass _ (I32, if zlen b =? -1 then 1 else 0)); [exists O; cc; rewrite U8v; cbn; change (rt "u32_to_u8") with I64; cc; reflexivity|]. cbn [snd]. replace (zlen b =? -1) with false by lia. reflexivity. }
      eapply a_seq.
      { eapply (runs_if rt cl mono _ _ _ _ (I32, 1)).
        - exists O. cc. rewrite U8v. cbn. change (rt "u32_to_u8") with I64. cc. rewrite ?u64_id by (unfold two64; lia). replace (zlen b <=? 256) with true by lia. reflexivity.
        - cbn [snd Z.eqb].
          refine (fill_runs rt cl mono (fun kk arr => sa (Some (zlen a)) (Some (zlen l)) (Some 256) (Some 0) kk X arr tmp name) "u8" (int 0) _ _ 0 b (zlen u8) _ _ _ _ [] u8 (Some (zlen l)) eq_refl _ eq_refl); [| | | |lia].
          + intros kk arr _. eapply (runs_exp rt cl). exists O. cc. reflexivity.
          + intros kk arr B E. exists O. cc. rewrite U8v. cbn. change (rt "u32_to_u8") with I64. cbn. rewrite ?u64_id by (unfold two64; lia). reflexivity.
          + intros kk y arr arr' B C IY E Y. exists O. split; [|discriminate]. cc. rewrite ?(u64_id kk) by (unfold two64 in *; lia). rewrite (UE _ _ _ _ b kk eq_refl), C. cbn.
            change (rt "u32_to_u8 result") with CLang.U8. cbn. cbn in Y. rewrite ?(u64_id kk) by (unfold two64 in *; lia). rewrite Y. reflexivity.
          + intros kk arr B. eapply (runs_exp rt cl). exists O. cc. rewrite (u64_id (kk + 1)) by (unfold two64 in *; lia). reflexivity. }
      cbn [app].
      eapply a_seq. { eapply (runs_exp rt cl). exists O. cc. rewrite U8v. cbn. change (rt "u32_to_u8") with I64. cbn. rewrite ?u64_id by (unfold two64; lia). reflexivity. }
      eapply a_seq; [|exact H]. exists O. split; [|discriminate]. cc. change (0 mod 256) with 0. rewrite SET8. reflexivity. }
    assert (EH : evals rt cl (EVar "has_ulabel") S3 (I32, hu) S3) by (exists O; reflexivity).
    assert (EC : forall x, u = Some x -> evals rt cl (EBin Ne (ECall "strcmp" ["ulabel"; "u8"] []) (int 0)) S3 (I32, if list_eqb x b then 0 else 1) S3).
    { intros x E. exists O. unfold S3. cc. rewrite g_strcmp, E. unfold ulabel_array. rewrite cstr_whole by (rewrite E in CU; now apply c_string_no0). rewrite CB8. cbn. destruct (list_eqb x b); reflexivity. }
    set (m := match u with Some s => if list_eqb s b then Ok tt else Fail IDN2_UALABEL_MISMATCH | None => Ok tt end).
    assert (H6 : match m with
      | Ok _ => forall e r st, a_done e r name S3 st -> a_done e r name S3 (SSeq (SIf (EVar "has_ulabel") (SIf (EBin Ne (ECall "strcmp" ["ulabel"; "u8"] []) (int 0)) (SReturn (int IDN2_UALABEL_MISMATCH)) SSkip) SSkip) st)
      | Fail e => forall st, a_done e (inl e) name S3 (SSeq (SIf (EVar "has_ulabel") (SIf (EBin Ne (ECall "strcmp" ["ulabel"; "u8"] []) (int 0)) (SReturn (int IDN2_UALABEL_MISMATCH)) SSkip) SSkip) st)
      | _ => True end).
    { unfold m, hu in *. destruct u as [x|] eqn:EQU.
      - specialize (EC x eq_refl). destruct (list_eqb x b).
        + intros e r st H. eapply a_seq; [|exact H]. eapply (runs_if rt cl mono); [exact EH|]. cbn [snd Z.eqb]. eapply a_pass; [exact EC|reflexivity].
        + intros st. apply a_stop. exists S3, X, B8, tmp. split; [|reflexivity]. eapply (runs_if rt cl mono); [exact EH|]. cbn [snd Z.eqb]. eapply (runs_if rt cl mono); [exact EC|]. cbn [snd Z.eqb]. eapply (runs_ret rt cl). exists O. reflexivity.
      - intros e r st H. eapply a_seq; [|exact H]. eapply a_pass; [exact EH|reflexivity]. }
    destruct m as [ [] |e| |]; cbn [bind]; [| |exact Logic.I..]. 2:{ apply H2, H3, H4, H5, H6. }
    specialize (HR b CB LB). pose proof (reg_u_codes U b 0 K CB) as RC. pose proof (reg_u_no0 U b 0) as N0. pose proof (reg_u_nz U b 0) as NZ2.
    destruct (reg_ulabel U b 0) as [t|e| |] eqn:RU; cbn [bind]; [| |exact Logic.I..].
    2:{ apply H2, H3, H4, H5, H6. unfold S3. eapply a_seq. { eapply (runs_exp rt cl). exists O. cc. rewrite g_reg, CB8. cbn. rewrite HR. change (rt "idn2_register_u8") with I32. cc. reflexivity. }
      eapply (a_ret _ _ _ (I32, if e =? 0 then 0 else 1)); [exists O; cc; change IDN2_OK with 0; destruct (e =? 0); reflexivity| |right; split; reflexivity]. pose proof (NZ2 e K CB eq_refl) as E0. unfold IDN2_OK in E0. cbn [snd]. replace (e =? 0) with false by lia. discriminate. }
    specialize (N0 t CB eq_refl). set (TT := map Some (t ++ [0]) ++ skipn (length (t ++ [0])) tmp). pose proof (z0 _ t) as T0. assert (Z1 : zlen (t ++ [0]) = zlen t + 1) by (rewrite zlen_app; reflexivity).
    assert (CT : cstr TT = Val t) by (apply cstr_front; exact N0).
    set (S4 := sa (Some (zlen a)) (Some (zlen l)) (Some (zlen b)) (Some (if list_eqb a t then 0 else 1)) (Some (zlen (t ++ [0]))) X B8 TT name).
    assert (H7 : forall e r st, a_done e r name S4 st -> a_done e r name S3
      (SSeq (SExp (EAsg "rc" (ECall "idn2_register_u8" ["u8"] []))) (SSeq (SIf (EBin Ne (EVar "rc") (int IDN2_OK)) (SReturn (EVar "rc")) SSkip)
       (SSeq (fill "tmp" (int 0) (ECall "idn2_register_u8 tmp size" ["u8"] []) (ECall "idn2_register_u8 tmp" ["u8"] [EVar "k"]))
       (SSeq (SExp (EAsg "rc" (ECall "strcmp" ["alabel"; "tmp"] []))) st))))).
    { intros e r st H. unfold S3.
      eapply a_seq. { eapply (runs_exp rt cl). exists O. cc. rewrite g_reg, CB8. cbn. rewrite HR. change (rt "idn2_register_u8") with I32. cc. reflexivity. }
      eapply a_seq. { eapply (a_pass _ (I32, 0)); [exists O; cc; reflexivity|reflexivity]. }
      eapply a_seq.
      { refine (fill_runs rt cl mono (fun kk arr => sa (Some (zlen a)) (Some (zlen l)) (Some (zlen b)) (Some 0) kk X B8 arr name) "tmp" (int 0) _ _ 0 (t ++ [0]) (zlen tmp) _ _ _ _ [] tmp (Some (zlen b)) eq_refl _ eq_refl); [| | | |lia].
        - intros kk arr _. eapply (runs_exp rt cl). exists O. cc. reflexivity.
        - intros kk arr B E. exists O. cc. rewrite g_reg_len, CB8. cbn. rewrite HR. reflexivity.
        - intros kk y arr arr' B C IY E Y. exists O. split; [|discriminate]. cc. rewrite ?(u64_id kk) by (unfold two64 in *; lia). rewrite g_reg_elt, CB8. cbn [rbind]. rewrite HR, C. cbn.
          change (rt "idn2_register_u8 tmp") with CLang.U8. cbn. cbn in Y. rewrite ?(u64_id kk) by (unfold two64 in *; lia). rewrite Y. reflexivity.
        - intros kk arr B. eapply (runs_exp rt cl). exists O. cc. rewrite (u64_id (kk + 1)) by (unfold two64 in *; lia). reflexivity. }
      cbn [app]. fold TT. eapply a_seq; [|exact H]. eapply (run_set rt cl _ "rc" _ (I32, if list_eqb a t then 0 else 1) ((I32, if list_eqb a t then 0 else 1), S4)); [|reflexivity].
      exists O. cc. rewrite g_strcmp, cstr_whole by exact a_no0. rewrite CT. cbn. change (rt "strcmp") with I32. reflexivity. }
    destruct (list_eqb a t) eqn:EQ.
    - set (ST := fun k arr => sa (Some (zlen a)) (Some (zlen l)) (Some (zlen b)) (Some 0) k X B8 TT arr).
      assert (DR : R (strdup "alabel") S4 (Norm (ST (Some (zlen a + 1)) (with_string a name)))).
      { apply (strdup_runs U reg ST "alabel" a [] a_no0); [lia| | | | | | |lia].
        + intros. eapply (runs_exp rt cl). exists O. cc. reflexivity.
        + reflexivity.
        + intros kk arr B. eapply (runs_exp rt cl). exists O. cc. rewrite (u64_id (kk + 1)) by (unfold two64; lia). reflexivity.
        + intros kk arr. rewrite app_nil_r. split; reflexivity.
        + reflexivity.
        + reflexivity. }
      assert (EI : evals rt cl (EVar "has_insertname") S4 (I32, if has_ then 1 else 0) S4) by (exists O; reflexivity).
      apply H2, H3, H4, H5, H6, H7. eapply a_seq. { eapply (a_pass _ (I32, 0)); [exists O; unfold S4; cc; reflexivity|reflexivity]. }
      destruct has_ eqn:HB.
      + exists (ST (Some (zlen a + 1)) (with_string a name)), X, B8, TT. split; [|unfold inserted; rewrite HB; reflexivity]. eapply (runs_seq rt cl mono). { eapply (runs_if rt cl mono); [exact EI|]. cbn [snd Z.eqb]. exact DR. } eapply (runs_ret rt cl). exists O. reflexivity.
      + exists S4, X, B8, TT. split; [|unfold inserted; rewrite HB; reflexivity]. eapply (runs_seq rt cl mono). { eapply a_pass; [exact EI|reflexivity]. } eapply (runs_ret rt cl). exists O. reflexivity.
    - apply H2, H3, H4, H5, H6, H7. unfold S4. eapply (a_ret _ _ _ (I32, 1)); [exists O; cc; reflexivity|discriminate|left; reflexivity].
  Qed.
End Reg.
