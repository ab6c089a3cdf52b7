(** The text of idn2_to_unicode_44i. *)
From Coq Require Import String.
From Verif Require Import Base PunyBase Uenv DataTypes SpecUtf8 SpecNfc SpecLookup SpecUnicode SpecUniRefusal Utf8 Utf8Proofs Puny Idna Lookup Api ApiProofs CostLabel NfcProofs
  CLang CLogic CLeaf CDecode CEncode CLabel CBidi CMapData CLookup CRegister CUnicode CWrap CUni CUni44 SpecCPuny SpecCRegister SpecCWrap SpecCUni SpecCUni44 CLookupMap CLookupName CLabelFun CUnicodeRun CRegisterRun CWrapRun CUniRun CUniTop.
Local Open Scope string_scope.
Local Open Scope list_scope.
Local Open Scope Z_scope.
Arguments calls : simpl never.
Arguments types : simpl never.
Arguments uni44_program : simpl never.
Arguments cstr : simpl never.
Arguments u32_strlen : simpl never.
Arguments Z.mul : simpl never.

Section Run.
  Variable g : list Z -> Z + list Z.
  Notation P := (uni44_program g).
  Notation rt := (types P).
  Notation cl := (calls P 0).
  Notation R := (runs rt cl).
  Lemma u44_mono : forall n m f vs a, (n <= m)%nat -> cl n f vs a <> Fuel -> cl m f vs a = cl n f vs a. Proof. intros; now apply calls_mono. Qed.
  Notation mono := u44_mono.
  Lemma x_len : forall n t l, cl n "u32_strlen" [] [(t, l)] = u32_strlen l. Proof. reflexivity. Qed.
  Lemma x_rc : forall n t l, cl n "idn2_to_unicode_4z4z" [] [(t, l)] = on_string (fun s => rc_sum (g s)) l. Proof. reflexivity. Qed.
  Lemma x_size : forall n t l, cl n "idn2_to_unicode_4z4z size" [] [(t, l)] = on_string (fun s => size_sum (g s)) l. Proof. reflexivity. Qed.
  Lemma x_elt : forall n a t l k, cl n "idn2_to_unicode_4z4z *output" [(a, k)] [(t, l)] = on_string (fun s => elt_sum (g s) k) l. Proof. reflexivity. Qed.
  Lemma fill_44 : forall (ST : option Z -> list (option Z) -> cst) a n e ty te t,
    (forall k arr, R (SExp (EAsg "k" (int 0))) (ST k arr) (Norm (ST (Some 0) arr))) ->
    (forall k arr, 0 <= k < zlen t -> R (SExp (EPost "k")) (ST (Some k) arr) (Norm (ST (Some (k + 1)) arr))) ->
    (forall k arr, evals rt cl (EVar "k") (ST (Some k) arr) (U64, k) (ST (Some k) arr)) ->
    (forall k arr, assoc a (arrs (ST k arr)) = Some (ty, arr)) ->
    (forall k arr arr', mkst (vars (ST k arr)) (update a (fun _ => (ty, arr')) (arrs (ST k arr))) = ST k arr') ->
    (forall k arr, 0 <= k <= zlen t -> evals rt cl n (ST (Some k) arr) (U64, zlen t) (ST (Some k) arr)) ->
    (forall k arr b, 0 <= k < zlen t -> cell (map Some t) k = Val b -> evals rt cl e (ST (Some k) arr) (te, b) (ST (Some k) arr)) ->
    Forall (fun b => cast te ty b = b) t ->
    forall arr k, zlen t <= zlen arr -> zlen t < two64 -> R (fill a (int 0) n e) (ST k arr) (Norm (ST (Some (zlen t)) (in_front t arr))).
  Proof.
    intros ST a n e ty te t H0 H3 HK HI HU HN HE FT arr k LA L6. pose proof (z0 _ t) as T0. unfold in_front.
    refine (fill_runs rt cl mono ST a (int 0) n e 0 t (zlen arr) _ _ _ _ [] arr k eq_refl LA eq_refl).
    - intros. apply H0.
    - intros kk ar B E. eapply (ev_bin rt cl mono _ _ _ _ (U64, kk) (U64, zlen t)); [apply HK|apply HN; exact B|]. cbn. unfold cast. cbn. destruct (kk <? zlen t); reflexivity.
    - intros kk b ar ar' B C IB E SC. rewrite <- (HU (Some kk) ar ar').
      eapply (run_store rt cl mono (ST (Some kk) ar) a _ _ ty ar (U64, 0 + kk) (te, b) ar'); [apply HI| |apply HE; [exact B|exact C]|].
      + eapply (ev_bin rt cl mono _ _ _ _ (I32, 0) (U64, kk)); [exists O; reflexivity|apply HK|]. cbn. unfold cast. cbn. change (u64 0) with 0. replace (0 + kk) with kk by lia. rewrite ?(u64_id kk) by lia. reflexivity.
      + cbn [fst snd]. rewrite (proj1 (Forall_forall _ _) FT b IB). exact SC.
    - exact H3.
  Qed.
  Ltac ff := first [ intros; eapply (runs_exp rt cl); exists O; cc; reflexivity
                   | intros; exists O; reflexivity | reflexivity ].
  Ltac kk1 := intros; eapply (runs_exp rt cl); exists O; cc; match goal with |- context [u64 (?k + 1)] => rewrite (u64_id (k + 1)) by (unfold two64; lia) end; reflexivity.
  Lemma size44_runs : forall n x, 0 <= n -> n + 1 < 4611686018427387904 -> exists st, R (f_body c_44i_size) (mkst [("inlen", (U64, Some n))] [("malloc", (U64, [x]))]) (Ret (I32, 0) st) /\ arrs st = [("malloc", (U64, [Some (4 * (n + 1))]))].
  Proof.
    intros n x N0 N1. eexists. split.
    - eapply (runs_seq rt cl mono). { exists O. split; [|discriminate]. cc. rewrite (u64_id (n + 1)) by (unfold two64; lia). rewrite (u64_id ((n + 1) * 4)) by (unfold two64; lia). rewrite (set_c [] x [] _ 0 eq_refl). cbn. reflexivity. }
      eapply (runs_ret rt cl). exists O. reflexivity.
    - replace (4 * (n + 1)) with ((n + 1) * 4) by lia. reflexivity.
  Qed.
  Variables (l v : list Z) (rest : list (option Z)) (ho hl : bool) (outlen : Z).
  Hypothesis LL : zlen l < 100000000000000000.
  Hypothesis LV : until_zero l v.
  Hypothesis LO : 0 <= outlen < two64.
  Hypothesis G : match g v with inl rc => rc <> 0 | inr d => ~ In 0 d /\ zlen d <= 255 end.
  Definition gmem (i32 o32 out : list (option Z)) (ol : Z) : list (string * carr) :=
    [("in", (U32, map Some l ++ rest)); ("input_u32", (U32, i32)); ("output_u32", (U32, o32)); ("out", (U32, out)); ("outlen", (U64, [Some ol]))].
  Definition gs (rc len k : option Z) (i32 o32 out : list (option Z)) (ol : Z) : cst :=
    mkst [("inlen", (U64, Some (zlen l))); ("has_out", (I32, Some (if ho then 1 else 0))); ("has_outlen", (I32, Some (if hl then 1 else 0))); ("rc", (I32, rc)); ("len", (U64, len)); ("k", (U64, k))] (gmem i32 o32 out ol).
  Definition copied (d : list Z) : nat := if ho && hl then Nat.min (length d) (Z.to_nat outlen) else 0.
  Lemma copied_zlen : forall d, zlen (firstn (copied d) d) = if ho && hl then Z.min (zlen d) outlen else 0.
  Proof. intros d. unfold zlen, copied. rewrite firstn_length. destruct (ho && hl); lia. Qed.
  Notation X := (map Some (l ++ [0])).
  Lemma str_x : cstr X = Val v.
  Proof.
    destruct LV as (N & [-> | (r & ->)]).
    - rewrite <- (app_nil_r (map Some (v ++ [0]))). now apply cstr_front.
    - replace (map Some ((v ++ 0 :: r) ++ [0])) with (map Some (v ++ [0]) ++ map Some (r ++ [0])) by (rewrite <- map_app, <- !app_assoc; reflexivity). now apply cstr_front.
  Qed.
  Lemma rc_set : forall o32 out, R (SExp (EAsg "rc" (ECall "idn2_to_unicode_4z4z" ["input_u32"] []))) (gs None None (Some (zlen l)) X o32 out outlen) (Norm (gs (Some (SpecCRegister.code_of (g v))) None (Some (zlen l)) X o32 out outlen)).
  Proof.
    intros o32 out. eapply (run_set rt cl _ _ _ (I32, SpecCRegister.code_of (g v)) ((I32, SpecCRegister.code_of (g v)), _)); [|reflexivity].
    apply (ev_call rt cl mono _ "idn2_to_unicode_4z4z" ["input_u32"] [] [] _ [(U32, X)]); [constructor|reflexivity|]. intros m. rewrite x_rc. unfold on_string. rewrite str_x. reflexivity.
  Qed.
  (** Up to the call. *)
  Lemma start : forall i32 o32 out r fin, zlen i32 = zlen l + 1 ->
    R r (gs (Some (SpecCRegister.code_of (g v))) None (Some (zlen l)) X o32 out outlen) fin ->
    R (SSeq (fill "input_u32" (int 0) (EVar "inlen") (EIdx "in" (EVar "k"))) (SSeq (SStore "input_u32" (EVar "inlen") (int 0)) (SSeq (SExp (EAsg "rc" (ECall "idn2_to_unicode_4z4z" ["input_u32"] []))) r))) (gs None None None i32 o32 out outlen) fin.
  Proof.
    intros i32 o32 out r fin L3 RR. pose proof (z0 _ l) as L0.
    assert (exists x, skipn (length l) i32 = [x]) as (x & SK). { pose proof (skipn_length (length l) i32) as E. unfold zlen in L3. replace (length i32 - length l)%nat with 1%nat in E by lia. destruct (skipn (length l) i32) as [|x [|y q] ]; [discriminate E|exists x; reflexivity|discriminate E]. }
    eapply (runs_seq rt cl mono).
    { apply (fill_44 (fun kk arr => gs None None kk arr o32 out outlen) "input_u32" _ _ U32 U32 l); [ff|kk1|ff|ff|ff|ff| | |lia|unfold two64; lia].
      - intros kk arr b B C. eapply (ev_idx rt cl); [reflexivity|exists O; reflexivity|]. cbn [snd]. apply cell_front. exact C.
      - apply Forall_forall. intros c _. reflexivity. }
    assert (SX : set_cell (in_front l i32) (zlen l) 0 = Val X). { unfold in_front. rewrite SK, (set_c (map Some l) x [] 0 (zlen l)) by apply zlen_map. rewrite map_app. reflexivity. }
    eapply (runs_seq rt cl mono). { exists O. split; [|discriminate]. cc. rewrite SX. cbn. reflexivity. }
    eapply (runs_seq rt cl mono); [apply rc_set|exact RR].
  Qed.
  Lemma g_refused : forall e, g v = inl e -> forall i32 o32 out, zlen i32 = zlen l + 1 ->
    exists st, R (f_body c_44i) (gs None None None i32 o32 out outlen) (Ret (I32, e) st) /\ arrs st = gmem X o32 out outlen.
  Proof.
    intros e E i32 o32 out L3. rewrite E in G. exists (gs (Some e) None (Some (zlen l)) X o32 out outlen). split; [|reflexivity].
    apply start; [exact L3|]. rewrite E. cbn [SpecCRegister.code_of]. eapply (runs_seq_stop rt cl); [|exact Logic.I].
    eapply (runs_if rt cl mono). { eapply (ev_bin rt cl mono _ _ _ _ (I32, e) (I32, 0)); [exists O; reflexivity|exists O; reflexivity|reflexivity]. }
    cbn. unfold cast. cbn. replace (e =? 0) with false by lia. cbn. eapply (runs_ret rt cl). exists O. reflexivity.
  Qed.
  Lemma g_given : forall d, g v = inr d -> forall i32 o32 out, zlen i32 = zlen l + 1 -> 256 <= zlen o32 -> zlen (firstn (copied d) d) <= zlen out ->
    exists st o32', R (f_body c_44i) (gs None None None i32 o32 out outlen) (Ret (I32, 0) st) /\ arrs st = gmem X o32' (first_of (copied d) d out) (if hl then zlen d else outlen).
  Proof.
    intros d E i32 o32 out L3 L256 LE. rewrite E in G. destruct G as (D0 & LD). pose proof (z0 _ d) as ZD. pose proof (copied_zlen d) as CL. unfold two64 in LO.
    assert (ZT : zlen (d ++ [0]) = zlen d + 1) by (rewrite zlen_app; reflexivity).
    set (Y := in_front (d ++ [0]) o32). unfold first_of.
    assert (SK : skipn (length (firstn (copied d) d)) out = skipn (copied d) out). { f_equal. rewrite firstn_length. unfold copied. destruct (ho && hl); lia. }
    set (N := ECond (EBin Lt (EVar "len") (EIdx "outlen" (int 0))) (EVar "len") (EIdx "outlen" (int 0))).
    set (k1 := Some (zlen (d ++ [0]))).
    assert (EC : evals rt cl (EAnd (EVar "has_out") (EVar "has_outlen")) (gs (Some 0) (Some (zlen d)) k1 X Y out outlen) (I32, if ho && hl then 1 else 0) (gs (Some 0) (Some (zlen d)) k1 X Y out outlen)) by (exists O; cc; destruct ho, hl; reflexivity).
    assert (S2 : exists k, R (SIf (EAnd (EVar "has_out") (EVar "has_outlen")) (fill "out" (int 0) N (EIdx "output_u32" (EVar "k"))) SSkip) (gs (Some 0) (Some (zlen d)) k1 X Y out outlen)
        (Norm (gs (Some 0) (Some (zlen d)) k X Y (map Some (firstn (copied d) d) ++ skipn (copied d) out) outlen))).
    { destruct (ho && hl) eqn:HB.
      - exists (Some (zlen (firstn (copied d) d))). eapply (runs_if rt cl mono); [exact EC|]. cbn [snd Z.eqb]. rewrite <- SK.
        apply (fill_44 (fun kk arr => gs (Some 0) (Some (zlen d)) kk X Y arr outlen) "out" _ _ U32 U32 (firstn (copied d) d)); [ff|intros kk arr B; rewrite CL in B; revert kk arr B; kk1|ff|ff|ff| | |apply Forall_forall; intros c _; reflexivity|exact LE|rewrite CL; unfold two64; lia].
        + intros kk arr B. rewrite CL. exists O. unfold N. cc. change (cell [Some outlen] 0) with (Val outlen). cc. replace (Z.min (zlen d) outlen) with (if zlen d <? outlen then zlen d else outlen) by (destruct (zlen d <? outlen) eqn:Q2; lia). destruct (zlen d <? outlen) eqn:Q; cc; try (change (cell [Some outlen] 0) with (Val outlen)); cc; reflexivity.
        + intros kk arr b B C. eapply (ev_idx rt cl); [reflexivity|exists O; reflexivity|]. cbn [snd]. unfold Y, in_front. rewrite (map_app (@Some Z) d), <- app_assoc. replace (map Some d) with (map Some (firstn (copied d) d) ++ map Some (skipn (copied d) d)) by (rewrite <- map_app, firstn_skipn; reflexivity). rewrite <- app_assoc. apply cell_front. exact C.
      - exists k1. assert (NC : copied d = O) by (unfold copied; rewrite HB; reflexivity). rewrite NC. cbn [firstn map app skipn]. eapply (runs_if rt cl mono); [exact EC|]. apply runs_skip. }
    destruct S2 as (k & S2). eexists. exists Y. split.
    - apply start; [exact L3|]. rewrite E. cbn [SpecCRegister.code_of].
      eapply (runs_seq rt cl mono). { eapply (runs_if rt cl mono). { eapply (ev_bin rt cl mono _ _ _ _ (I32, 0) (I32, 0)); [exists O; reflexivity|exists O; reflexivity|reflexivity]. } cbn. apply runs_skip. }
      eapply (runs_seq rt cl mono).
      { apply (fill_44 (fun kk arr => gs (Some 0) None kk X arr out outlen) "output_u32" _ _ U32 U32 (d ++ [0])); [ff|kk1|ff|ff|ff| | |apply Forall_forall; intros c _; reflexivity|lia|unfold two64; lia].
        - intros kk arr B. apply (ev_call rt cl mono _ "idn2_to_unicode_4z4z size" ["input_u32"] [] [] _ [(U32, X)]); [constructor|reflexivity|]. intros m. rewrite x_size. unfold on_string. rewrite str_x. cbn [rbind]. rewrite E. reflexivity.
        - intros kk arr b B C. apply (ev_call rt cl mono _ "idn2_to_unicode_4z4z *output" ["input_u32"] [EVar "k"] [(U64, kk)] _ [(U32, X)]); [constructor; [exists O; reflexivity|constructor]|reflexivity|].
          intros m. rewrite x_elt. unfold on_string. rewrite str_x. cbn [rbind]. rewrite E. exact C. }
      fold Y. fold k1. apply (runs_seq rt cl mono _ _ _ (gs (Some 0) (Some (zlen d)) k1 X Y out outlen)).
      { eapply (run_set rt cl _ _ _ (U64, zlen d) (U64, zlen d, _)); [|reflexivity].
        apply (ev_call rt cl mono _ "u32_strlen" ["output_u32"] [] [] (zlen d) [(U32, Y)]); [constructor|reflexivity|]. intros n. rewrite x_len. unfold Y, in_front. now apply strlen_front. }
      eapply (runs_seq rt cl mono); [exact S2|].
      apply (runs_seq rt cl mono _ _ _ (gs (Some 0) (Some (zlen d)) k X Y (map Some (firstn (copied d) d) ++ skipn (copied d) out) (if hl then zlen d else outlen))); [|eapply (runs_ret rt cl); exists O; cc; reflexivity].
      eapply (runs_if rt cl mono); [exists O; cc; reflexivity|]. destruct hl; cbn [snd Z.eqb].
      + exists O. split; [|discriminate]. cc. reflexivity.
      + apply runs_skip.
    - reflexivity.
  Qed.
End Run.
