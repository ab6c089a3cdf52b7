(** The text of the two passes of the mapping in _tr46. *)
From Coq Require Import String.
From Verif Require Import Base PunyBase Uenv DataTypes SpecTables Tables Gentr46 Tr46Map Tr46Facts Idna Lookup SpecLookup MapProofs WidthTop CLang CLogic CLeaf CDecode CEncode CLabel CBidi CMapData CLookup SpecCPuny SpecCLookup CLookupMap.
Local Open Scope string_scope.
Local Open Scope list_scope.
Local Open Scope Z_scope.
Arguments calls : simpl never.
Arguments types : simpl never.
Arguments lookup_program : simpl never.
Arguments Z.land : simpl never.
Arguments Z.lor : simpl never.

Section Tr46.
  Variable U : uenv.
  Variable lab : list Z -> Z -> Z + list Z.
  Notation P := (lookup_program U lab).
  Notation rt := (types P). Notation cl := (calls P 1).
  Notation R := (runs rt cl).
  Notation mono := (lk_mono U lab).
  Variable flags : Z.
  Hypothesis HF : 0 <= flags.
  Notation tr := (opt_transitional flags). Notation std3 := (opt_std3 flags).
  Variable l : list Z.
  Hypothesis WL : Forall (fun c => 0 < c < two32) l.
  Hypothesis LL : 32 * (zlen l + 1) < two64.

  Lemma l_map : forall n t c m k, get_idna_map c = Ok (m, k) -> cl n "get_idna_map" [(t, c)] [] = Val (m_idx m).
  Proof. intros n t c m k E. change (cl n "get_idna_map" [(t, c)] []) with (match get_idna_map c with Ok (m, _) => Val (m_idx m) | _ => UB end). rewrite E. reflexivity. Qed.
  Lemma l_num : forall n t c m k, get_idna_map c = Ok (m, k) -> cl n "get_idna_map nmappings" [(t, c)] [] = Val (m_n m).
  Proof. intros n t c m k E. change (cl n "get_idna_map nmappings" [(t, c)] []) with (map_of c (fun m => Val (m_n m))). unfold map_of. rewrite E. reflexivity. Qed.
  Lemma l_data : forall n t c, 0 <= c -> cl n "get_map_data" [(t, c)] [] = Val (zlen (mapping_of c)).
  Proof.
    intros n t c C. destruct (map_facts c C) as (m & k & A & _ & D & _). change (cl n "get_map_data" [(t, c)] []) with (data_of c (fun l => Val (zlen l))). unfold data_of, map_of. rewrite A, D. reflexivity.
  Qed.
  Lemma l_dst : forall n t t' c k, 0 <= c -> cl n "get_map_data dst" [(t, c); (t', k)] [] = cell (map Some (mapping_of c)) k.
  Proof.
    intros n t t' c k C. destruct (map_facts c C) as (m & j & A & _ & D & _). change (cl n "get_map_data dst" [(t, c); (t', k)] []) with (data_of c (fun l => cell (map Some l) k)). unfold data_of, map_of. rewrite A, D. reflexivity.
  Qed.
  Lemma l_is : forall st m F b, get_var "map" st = Val (U32, m_idx m) -> Tr46Map.map_is m F = Ok b -> evals rt cl (CLabel.map_is F) st (I32, if b then 1 else 0) st.
  Proof.
    intros st m F b G M. exists O. unfold CLabel.map_is. cbn [eval]. rewrite G. cbn.
    change (cl 0%nat "map_is" [(U32, m_idx m); (I32, F)] []) with (of_bool (Tr46Map.map_is m F)). rewrite M. reflexivity.
  Qed.
  Lemma flag_has : forall st k, get_var "flags" st = Val (I32, flags) -> 0 <= k -> evals rt cl (EBin BAnd (EVar "flags") (int k)) st (I32, Z.land flags k) st.
  Proof. intros st k G K. exists O. cbn [eval]. rewrite G. cbn. unfold cast. cbn. replace ((flags <? 0) || (k <? 0)) with false by lia. reflexivity. Qed.
  Lemma flag_not : forall st k, get_var "flags" st = Val (I32, flags) -> 0 <= k -> evals rt cl (ENot (EBin BAnd (EVar "flags") (int k))) st (I32, if has flags k then 0 else 1) st.
  Proof.
    intros st k G K. destruct (flag_has st k G K) as (n & E). exists n. cbn [eval] in *. rewrite E. cbn [rbind snd]. unfold has. destruct (Z.land flags k =? 0); reflexivity.
  Qed.
  (** The chain of map_is: the branch of the status of [c]. *)
  Lemma chain : forall st c m k d mp v i dv std o, get_var "map" st = Val (U32, m_idx m) -> get_idna_map c = Ok (m, k) -> 0 <= c ->
    R (match status_of c with Disallowed => d | Mapped => mp | Valid => v | Ignored => i | Deviation => dv | _ => std end) st o ->
    R (SIf (CLabel.map_is FLG_DISALLOWED) d (SIf (CLabel.map_is FLG_MAPPED) mp (SIf (CLabel.map_is FLG_VALID) v (SIf (CLabel.map_is FLG_IGNORED) i (SIf (CLabel.map_is FLG_DEVIATION) dv std))))) st o.
  Proof.
    intros st c m k d mp v i dv std o G M C H. destruct (map_flags c C) as (m' & k' & A & F1 & F2 & F3 & F4 & F5 & _). assert (m' = m) as -> by congruence.
    eapply (runs_if rt cl mono); [exact (l_is st m _ _ G F1)|]. destruct (status_of c); cbn [status_eqb snd Z.eqb] in *; try exact H.
    all: eapply (runs_if rt cl mono); [exact (l_is st m _ _ G F2)|]; cbn [snd Z.eqb]; try exact H.
    all: eapply (runs_if rt cl mono); [exact (l_is st m _ _ G F3)|]; cbn [snd Z.eqb]; try exact H.
    all: eapply (runs_if rt cl mono); [exact (l_is st m _ _ G F4)|]; cbn [snd Z.eqb]; try exact H.
    all: eapply (runs_if rt cl mono); [exact (l_is st m _ _ G F5)|]; cbn [snd Z.eqb]; try exact H.
  Qed.
  Lemma std_chain : forall st c m k one mp o, get_var "map" st = Val (U32, m_idx m) -> get_var "flags" st = Val (I32, flags) -> get_idna_map c = Ok (m, k) -> 0 <= c ->
    status_of c = Std3Valid \/ status_of c = Std3Mapped -> R (if std3 then SSkip else match status_of c with Std3Valid => one | _ => mp end) st o ->
    R (SIf (ENot (EBin BAnd (EVar "flags") (int IDN2_USE_STD3_ASCII_RULES))) (SIf (CLabel.map_is FLG_DISALLOWED_STD3_VALID) one (SIf (CLabel.map_is FLG_DISALLOWED_STD3_MAPPED) mp SSkip)) SSkip) st o.
  Proof.
    intros st c m k one mp o G GF M C S H. destruct (map_flags c C) as (m' & k' & A & _ & _ & _ & _ & _ & F6 & F7 & _). assert (m' = m) as -> by congruence.
    eapply (runs_if rt cl mono); [apply (flag_not st _ GF); discriminate|]. rewrite has_std3. destruct std3; cbn [snd Z.eqb]; [exact H|].
    eapply (runs_if rt cl mono); [exact (l_is st m _ _ G F6)|]. destruct S as [S|S]; rewrite S in *; cbn [status_eqb snd Z.eqb]; [exact H|].
    eapply (runs_if rt cl mono); [exact (l_is st m _ _ G F7)|]. exact H.
  Qed.

  (** ** The first pass *)
  Definition cmem : list (string * carr) := [("domain_u32", (U32, map Some (l ++ [0]))); ("malloc", (U64, [None]))].
  Definition cs (t len2 it mp nm : option Z) : cst :=
    mkst [("len", (U64, Some (zlen l + 1))); ("flags", (I32, Some flags)); ("transitional", (I32, t)); ("len2", (U64, len2)); ("it", (U64, it)); ("map", (U32, mp)); ("map.nmappings", (I32, nm))] cmem.
  Definition t01 : Z := if tr then 1 else 0.
  Lemma t01_zero : (t01 =? 0) = negb tr. Proof. unfold t01. destruct tr; reflexivity. Qed.
  Definition c_body : stmt := Eval cbn in match nth 3 (flat (f_body c_tr46_count)) SSkip with SSeq _ (SLoop _ _ s) => s | SLoop _ _ s => s | s => s end.
  Lemma l_at : forall p c r, l = p ++ c :: r -> cell (map Some (l ++ [0])) (zlen p) = Val c.
  Proof. intros p c r E. apply (cell_at (l ++ [0]) p c (r ++ [0])). rewrite E, <- app_assoc. reflexivity. Qed.
  Lemma l_word : forall p c r, l = p ++ c :: r -> 0 < c < two32 /\ zlen p + 1 + zlen r = zlen l.
  Proof. intros p c r E. split; [|rewrite E, zlen_app, zlen_cons; lia]. pose proof WL as W. rewrite E in W. apply Forall_app in W. destruct W as (_ & W). inversion W; assumption. Qed.
  Lemma count_one : forall n it mp nm, 0 <= n -> n + 18 < two64 -> R (SExp (EPost "len2")) (cs (Some t01) (Some n) it mp nm) (Norm (cs (Some t01) (Some (n + 1)) it mp nm)).
  Proof. intros n it mp nm N H. eapply (runs_exp rt cl). exists O. cc. rewrite (u64_id (n + 1)) by lia. reflexivity. Qed.
  Lemma count_many : forall n it mp nm, 0 <= n -> n + 18 < two64 -> 0 <= nm <= 18 -> R (SExp (EOp Add "len2" (EVar "map.nmappings"))) (cs (Some t01) (Some n) it mp (Some nm)) (Norm (cs (Some t01) (Some (n + nm)) it mp (Some nm))).
  Proof. intros n it mp nm N H M. eapply (runs_exp rt cl). exists O. cc. rewrite (u64_id nm) by (unfold two64; lia). rewrite (u64_id (n + nm)) by lia. reflexivity. Qed.
  Lemma count_step : forall p c r n a b, l = p ++ c :: r -> 0 <= n -> n + 18 < two64 -> exists mp nm, R c_body (cs (Some t01) (Some n) (Some (zlen p)) a b)
    (if status_eqb (status_of c) Disallowed then Ret (I32, IDN2_DISALLOWED) (cs (Some t01) (Some n) (Some (zlen p)) mp nm)
     else (if status_eqb (status_of c) Ignored then Cnt else Norm) (cs (Some t01) (Some (n + zlen (map1 tr std3 c))) (Some (zlen p)) mp nm)).
  Proof.
    intros p c r n a b E N H. destruct (l_word p c r E) as (C & _). destruct (map_facts c ltac:(lia)) as (m & k & M & _ & _ & NM). pose proof (proj1 (mapping_short c)) as MS. pose proof (z0 _ (mapping_of c)).
    exists (Some (m_idx m)), (Some (m_n m)). set (st := cs (Some t01) (Some n) (Some (zlen p)) (Some (m_idx m)) (Some (m_n m))).
    unfold c_body. eapply (runs_seq rt cl mono). { eapply (runs_exp rt cl). exists O. cc. rewrite (l_at p c r E). cbn. rewrite (l_map _ _ c m k M). cbn. change (rt "get_idna_map") with U32. cc. reflexivity. }
    eapply (runs_seq rt cl mono). { eapply (runs_exp rt cl). exists O. cc. rewrite (l_at p c r E). cbn. rewrite (l_num _ _ c m k M). cbn. change (rt "get_idna_map nmappings") with I32. cc. reflexivity. }
    fold st. eapply (chain st c m k); [reflexivity|exact M|lia|]. unfold map1.
    assert (MANY : R (SExp (EOp Add "len2" (EVar "map.nmappings"))) st (Norm (cs (Some t01) (Some (n + zlen (mapping_of c))) (Some (zlen p)) (Some (m_idx m)) (Some (m_n m))))).
    { unfold st. rewrite NM. apply count_many; lia. }
    assert (ONE : R (SExp (EPost "len2")) st (Norm (cs (Some t01) (Some (n + zlen [c])) (Some (zlen p)) (Some (m_idx m)) (Some (m_n m))))) by (apply count_one; lia).
    assert (NONE : R SSkip st (Norm (cs (Some t01) (Some (n + zlen (@nil Z))) (Some (zlen p)) (Some (m_idx m)) (Some (m_n m))))).
    { change (zlen (@nil Z)) with 0. rewrite Z.add_0_r. apply runs_skip. }
    destruct (status_of c) eqn:S; cbn [status_eqb].
    - exact ONE.
    - exact MANY.
    - change (zlen (@nil Z)) with 0. rewrite Z.add_0_r. apply runs_cnt.
    - eapply (runs_if rt cl mono); [exists O; cc; reflexivity|]. cbn [snd]. rewrite t01_zero. destruct tr; cbn [negb]; [exact MANY|exact ONE].
    - eapply (runs_seq_stop rt cl); [|exact I]. eapply (runs_if rt cl mono); [exists O; cc; rewrite (l_at p c r E); reflexivity|]. cbn [snd]. replace (c =? 0) with false by lia. eapply (runs_ret rt cl). exists O. reflexivity.
    - eapply (std_chain st c m k); [reflexivity|reflexivity|exact M|lia|tauto|]. rewrite S. destruct std3; [exact NONE|exact MANY].
    - eapply (std_chain st c m k); [reflexivity|reflexivity|exact M|lia|tauto|]. rewrite S. destruct std3; [exact NONE|exact ONE].
  Qed.
  Definition c_loop : stmt := Eval cbn in match nth 3 (flat (f_body c_tr46_count)) SSkip with SSeq _ s => s | s => s end.
  Lemma cond_it : forall p r t a b d, l = p ++ r -> evals rt cl (EBin Lt (EVar "it") (EBin Sub (EVar "len") (int 1))) (cs t a (Some (zlen p)) b d) (I32, match r with [] => 0 | _ => 1 end) (cs t a (Some (zlen p)) b d).
  Proof.
    intros p r t a b d E. pose proof (f_equal zlen E) as Z1. rewrite zlen_app in Z1. pose proof (z0 _ p). unfold two64 in LL. exists O. cc.
    rewrite (u64_id (zlen l + 1 - 1)) by (unfold two64; pose proof (z0 _ r); lia). destruct r as [|c r].
    - change (zlen (@nil Z)) with 0 in Z1. destruct (zlen p <? zlen l + 1 - 1) eqn:Q; [lia|reflexivity].
    - rewrite zlen_cons in Z1. pose proof (z0 _ r). destruct (zlen p <? zlen l + 1 - 1) eqn:Q; [reflexivity|lia].
  Qed.
  Lemma step_it : forall p c r t a b d, l = p ++ c :: r -> R (SExp (EPost "it")) (cs t a (Some (zlen p)) b d) (Norm (cs t a (Some (zlen (p ++ [c]))) b d)).
  Proof.
    intros p c r t a b d E. destruct (l_word p c r E) as (_ & Z1). pose proof (z0 _ p). pose proof (z0 _ r). unfold two64 in LL. eapply (runs_exp rt cl). exists O. cc.
    rewrite (u64_id (zlen p + 1)) by (unfold two64; lia). rewrite zlen_app. reflexivity.
  Qed.
  Lemma count_runs : forall r p n a b, l = p ++ r -> 0 <= n -> n + 18 * zlen r < two64 -> exists st, R c_loop (cs (Some t01) (Some n) (Some (zlen p)) a b)
    (if existsb disallowedb r then Ret (I32, IDN2_DISALLOWED) st else Norm st) /\ arrs st = cmem /\
    (existsb disallowedb r = false -> exists it mp nm, st = cs (Some t01) (Some (n + zlen (uts46_map tr std3 r))) it mp nm).
  Proof.
    induction r as [|c r IH]; intros p n a b E N H; cbn [existsb].
    - eexists. split; [|split].
      + eapply (runs_loop_end rt cl mono); [exact (cond_it p [] _ _ _ _ E)|reflexivity].
      + reflexivity.
      + intros _. change (zlen (uts46_map tr std3 [])) with 0. rewrite Z.add_0_r. eauto.
    - rewrite zlen_cons in H. pose proof (z0 _ r). destruct (count_step p c r n a b E N ltac:(lia)) as (mp & nm & S). unfold disallowedb at 1 3.
      destruct (status_eqb (status_of c) Disallowed) eqn:D; cbn [orb].
      + eexists. split; [|split].
        * exact (runs_loop_stop rt cl mono _ _ _ _ _ _ _ (cond_it p (c :: r) _ _ _ _ E) ltac:(discriminate) S I).
        * reflexivity.
        * discriminate.
      + pose proof (proj1 (map1_short tr std3 c)) as MS. pose proof (z0 _ (map1 tr std3 c)).
        destruct (IH (p ++ [c]) (n + zlen (map1 tr std3 c)) mp nm ltac:(rewrite <- app_assoc; exact E) ltac:(lia) ltac:(lia)) as (st & A & B & C).
        exists st. split; [|split; [exact B|]].
        * destruct (status_eqb (status_of c) Ignored).
          -- eapply (runs_loop_cont rt cl mono); [exact (cond_it p (c :: r) _ _ _ _ E)|discriminate|exact S|exact (step_it p c r _ _ _ _ E)|exact A].
          -- eapply (runs_loop_next rt cl mono); [exact (cond_it p (c :: r) _ _ _ _ E)|discriminate|exact S|exact (step_it p c r _ _ _ _ E)|exact A].
        * intros Q. destruct (C Q) as (it & mp' & nm' & ->). exists it, mp', nm'. unfold uts46_map. cbn [flat_map]. rewrite zlen_app. f_equal. f_equal. lia.
  Qed.
  Lemma count_body : exists st size, R (f_body c_tr46_count) (cs None None None None None)
      (Ret (I32, if existsb disallowedb l then IDN2_DISALLOWED else if 255 <=? zlen (uts46_map tr std3 l) then IDN2_TOO_BIG_DOMAIN else 0) st) /\
    arrs st = [("domain_u32", (U32, map Some (l ++ [0]))); ("malloc", (U64, [size]))] /\
    size = if existsb disallowedb l then None else if 255 <=? zlen (uts46_map tr std3 l) then None else Some (4 * (zlen (uts46_map tr std3 l) + 1)).
  Proof.
    unfold two64 in LL. pose proof (z0 _ l) as L0. destruct (count_runs l [] 0 None None eq_refl ltac:(lia) ltac:(unfold two64; lia)) as (st & A & B & C).
    set (T := uts46_map tr std3 l) in *. pose proof (z0 _ T) as T0.
    assert (PR : forall s o, R (SSeq c_loop s) (cs (Some t01) (Some 0) (Some 0) None None) o ->
      R (SSeq (SExp (EAsg "len2" (int 0))) (SSeq (SExp (EAsg "transitional" (int 0))) (SSeq (SIf (EBin BAnd (EVar "flags") (int IDN2_TRANSITIONAL)) (SExp (EAsg "transitional" (int 1))) SSkip) (SSeq (SSeq (SExp (EAsg "it" (int 0))) c_loop) s)))) (cs None None None None None) o).
    { intros s o Q. eapply (runs_seq rt cl mono); [eapply (runs_exp rt cl); exists O; cc; reflexivity|]. eapply (runs_seq rt cl mono); [eapply (runs_exp rt cl); exists O; cc; reflexivity|].
      eapply (runs_seq rt cl mono).
      - eapply (runs_if rt cl mono); [apply flag_has; [reflexivity|discriminate]|]. cbn [snd].
        instantiate (1 := cs (Some t01) (Some 0) None None None). unfold t01. rewrite <- (has_transitional flags). unfold has. destruct (Z.land flags IDN2_TRANSITIONAL =? 0); cbn [negb]; [apply runs_skip|eapply (runs_exp rt cl); exists O; cc; reflexivity].
      - eapply (runs_init rt cl mono); [eapply (runs_exp rt cl); exists O; cc; reflexivity|]. exact Q. }
    change (f_body c_tr46_count) with (SSeq (SExp (EAsg "len2" (int 0))) (SSeq (SExp (EAsg "transitional" (int 0))) (SSeq (SIf (EBin BAnd (EVar "flags") (int IDN2_TRANSITIONAL)) (SExp (EAsg "transitional" (int 1))) SSkip) (SSeq (SSeq (SExp (EAsg "it" (int 0))) c_loop)
      (SSeq (SIf (EBin Ge (EVar "len2") (int 255)) (SReturn (int IDN2_TOO_BIG_DOMAIN)) SSkip) (SSeq (SStore "malloc" (int 0) (EBin Mul (EBin Add (EVar "len2") (int 1)) (EInt U64 4))) (SReturn (int 0)))))))).
    destruct (existsb disallowedb l) eqn:D.
    - exists st, None. split; [|split; [exact B|reflexivity]]. apply PR. eapply (runs_seq_stop rt cl); [exact A|exact I].
    - destruct (C eq_refl) as (it & mp & nm & ->). rewrite Z.add_0_l in A, B. rewrite Z.add_0_l in C. fold T in A.
      assert (TL : zlen T < two64). { unfold two64. pose proof (proj1 (map1_short tr std3 0)). assert (forall x, zlen (uts46_map tr std3 x) <= 18 * zlen x).
        { induction x as [|c x IH]; [reflexivity|]. unfold uts46_map in *. cbn [flat_map]. rewrite zlen_app, zlen_cons. pose proof (proj1 (map1_short tr std3 c)). lia. } specialize (H0 l). fold T in H0. lia. }
      assert (CO : evals rt cl (EBin Ge (EVar "len2") (int 255)) (cs (Some t01) (Some (zlen T)) it mp nm) (I32, if 255 <=? zlen T then 1 else 0) (cs (Some t01) (Some (zlen T)) it mp nm)) by (exists O; cc; reflexivity).
      destruct (255 <=? zlen T) eqn:Q.
      + exists (cs (Some t01) (Some (zlen T)) it mp nm), None. split; [|split; reflexivity]. apply PR. eapply (runs_seq rt cl mono); [exact A|]. eapply (runs_seq_stop rt cl); [|exact I].
        eapply (runs_if rt cl mono); [exact CO|]. eapply (runs_ret rt cl). exists O. reflexivity.
      + eexists _, (Some (4 * (zlen T + 1))). split; [|split; [|reflexivity]].
        * apply PR. eapply (runs_seq rt cl mono); [exact A|]. eapply (runs_seq rt cl mono); [eapply (runs_if rt cl mono); [exact CO|apply runs_skip]|].
          eapply (runs_seq rt cl mono); [|eapply (runs_ret rt cl); exists O; reflexivity].
          exists O. split; [|discriminate]. cc. rewrite (u64_id (zlen T + 1)) by (unfold two64; lia). rewrite (u64_id ((zlen T + 1) * 4)) by (unfold two64; lia). change (set_cell [None] 0 ((zlen T + 1) * 4)) with (Val [Some ((zlen T + 1) * 4)]). cbn. reflexivity.
        * cbn. replace ((zlen T + 1) * 4) with (4 * (zlen T + 1)) by lia. reflexivity.
  Qed.

  (** ** The second pass *)
  Definition ws (len2 it c mp k : option Z) (tmp : list (option Z)) : cst :=
    mkst [("len", (U64, Some (zlen l + 1))); ("flags", (I32, Some flags)); ("transitional", (I32, Some t01)); ("len2", (U64, len2)); ("it", (U64, it)); ("c", (U32, c)); ("map", (U32, mp)); ("k", (I32, k))]
      [("domain_u32", (U32, map Some (l ++ [0]))); ("tmp", (U32, tmp)); ("u32_normalize", (U64, [None]))].
  Definition d_loop : stmt := Eval cbn in match c_map_data with SSeq (SSeq _ s) _ => s | s => s end.
  Lemma data_loop : forall t q o c it mp rest, 0 <= c -> mapping_of c = q ++ t -> zlen o + 18 < two64 -> zlen t <= zlen rest ->
    exists k, R d_loop (ws (Some (zlen o)) it (Some c) mp (Some (zlen q)) (map Some (o ++ q) ++ rest)) (Norm (ws (Some (zlen o)) it (Some c) mp k (map Some (o ++ q ++ t) ++ skipn (length t) rest))).
  Proof.
    induction t as [|x t IH]; intros q o c it mp rest C E H LR; pose proof (f_equal zlen E) as Z1; rewrite zlen_app in Z1; pose proof (proj1 (mapping_short c)); pose proof (z0 _ q); pose proof (z0 _ o); unfold two64 in *.
    - rewrite app_nil_r. cbn [length skipn]. change (zlen (@nil Z)) with 0 in Z1. exists (Some (zlen q)). eapply (runs_loop_end rt cl mono).
      + exists O. cc. rewrite (l_data _ _ c C). cbn. change (rt "get_map_data") with I32. cc. reflexivity.
      + cbn [snd]. destruct (zlen q <? zlen (mapping_of c)) eqn:Q; [lia|reflexivity].
    - pose proof (z0 _ t). rewrite zlen_cons in Z1. destruct rest as [|y rest]; [change (zlen (@nil (option Z))) with 0 in LR; rewrite zlen_cons in LR; lia|]. rewrite !zlen_cons in LR.
      destruct (IH (q ++ [x]) o c it mp rest C ltac:(rewrite <- app_assoc; exact E) ltac:(lia) ltac:(lia)) as (k & A). exists k. cbn [length skipn].
      replace (o ++ q ++ x :: t) with (o ++ (q ++ [x]) ++ t) by (rewrite <- (app_assoc q); reflexivity).
      eapply (runs_loop_next rt cl mono).
      + exists O. cc. rewrite (l_data _ _ c C). cbn. change (rt "get_map_data") with I32. cc. reflexivity.
      + cbn [snd]. destruct (zlen q <? zlen (mapping_of c)) eqn:Q; [discriminate|lia].
      + exists O. split; [|discriminate]. cc. rewrite (u64_id (zlen q)) by (unfold two64; lia). rewrite (u64_id (zlen o + zlen q)) by (unfold two64; lia).
        rewrite (l_dst _ _ _ c _ C). rewrite (cell_at _ q x t E). cbn. change (rt "get_map_data dst") with U32. cc. rewrite <- (zlen_app _ o q). rewrite set_cell_out. cbn. reflexivity.
      + eapply (runs_exp rt cl). exists O. cc. unfold arith. cbn. replace ((-2147483648 <=? zlen q + 1) && (zlen q + 1 <=? 2147483647)) with true by lia. cc. reflexivity.
      + rewrite zlen_app in A. change (zlen [x]) with 1 in A. rewrite app_assoc, map_app, <- app_assoc in A. cbn [map app] in A. exact A.
  Qed.
  Lemma data_all : forall o c it mp k rest, 0 <= c -> zlen o + 18 < two64 -> zlen (mapping_of c) <= zlen rest ->
    exists k', R c_map_data (ws (Some (zlen o)) it (Some c) mp k (map Some o ++ rest)) (Norm (ws (Some (zlen (o ++ mapping_of c))) it (Some c) mp k' (map Some (o ++ mapping_of c) ++ skipn (length (mapping_of c)) rest))).
  Proof.
    intros o c it mp k rest C H LR. pose proof (proj1 (mapping_short c)). pose proof (z0 _ (mapping_of c)). pose proof (z0 _ o). destruct (data_loop (mapping_of c) [] o c it mp rest C eq_refl H LR) as (k' & A). cbn [app] in A. rewrite app_nil_r in A.
    exists k'. unfold c_map_data. eapply (runs_init rt cl mono); [eapply (runs_exp rt cl); exists O; cc; reflexivity|]. eapply (runs_seq rt cl mono); [exact A|].
    eapply (runs_exp rt cl). exists O. cc. rewrite (l_data _ _ c C). cbn. change (rt "get_map_data") with I32. cc. unfold two64 in *. rewrite (u64_id (zlen (mapping_of c))) by (unfold two64; lia). rewrite (u64_id (zlen o + _)) by (unfold two64; lia).
    rewrite zlen_app. reflexivity.
  Qed.
  Lemma store_one : forall o c it mp k x rest, zlen o + 18 < two64 -> R (SStore "tmp" (EPost "len2") (EVar "c")) (ws (Some (zlen o)) it (Some c) mp k (map Some o ++ x :: rest))
    (Norm (ws (Some (zlen (o ++ [c]))) it (Some c) mp k (map Some (o ++ [c]) ++ rest))).
  Proof.
    intros o c it mp k x rest H. pose proof (z0 _ o). exists O. split; [|discriminate]. cc. rewrite set_cell_out. cbn. rewrite (u64_id (zlen o + 1)) by (unfold two64 in *; lia). rewrite zlen_app, (map_app (@Some Z) o [c]), <- app_assoc. reflexivity.
  Qed.
  Definition w_loop : stmt := Eval cbn [f_body c_tr46_write flat nth app] in match f_body c_tr46_write with SSeq _ (SSeq (SSeq _ s) _) => s | s => s end.
  Definition w_body : stmt := Eval cbn [w_loop] in match w_loop with SLoop _ _ s => s | s => s end.
  Lemma write_step : forall p c r o a b k rest, l = p ++ c :: r -> zlen o + 18 < two64 -> zlen (map1 tr std3 c) <= zlen rest -> exists mp k', R w_body (ws (Some (zlen o)) (Some (zlen p)) a b k (map Some o ++ rest))
    ((if status_eqb (status_of c) Ignored then Cnt else Norm) (ws (Some (zlen (o ++ map1 tr std3 c))) (Some (zlen p)) (Some c) mp k' (map Some (o ++ map1 tr std3 c) ++ skipn (length (map1 tr std3 c)) rest))).
  Proof.
    intros p c r o a b k rest E H LR. destruct (l_word p c r E) as (C & _). destruct (map_facts c ltac:(lia)) as (m & j & M & _ & _ & NM). exists (Some (m_idx m)).
    set (st := ws (Some (zlen o)) (Some (zlen p)) (Some c) (Some (m_idx m)) k (map Some o ++ rest)).
    assert (PR : forall s u, R s st u -> R (SSeq (SExp (EAsg "c" (EIdx "domain_u32" (EVar "it")))) (SSeq (SExp (EAsg "map" (ECall "get_idna_map" [] [EVar "c"]))) s)) (ws (Some (zlen o)) (Some (zlen p)) a b k (map Some o ++ rest)) u).
    { intros s u Q. eapply (runs_seq rt cl mono). { eapply (runs_exp rt cl). exists O. cc. rewrite (l_at p c r E). cc. reflexivity. }
      eapply (runs_seq rt cl mono). { eapply (runs_exp rt cl). exists O. cc. rewrite (l_map _ _ c m j M). cbn. change (rt "get_idna_map") with U32. cc. reflexivity. } exact Q. }
    assert (MANY : map1 tr std3 c = mapping_of c -> exists k', R c_map_data st (Norm (ws (Some (zlen (o ++ mapping_of c))) (Some (zlen p)) (Some c) (Some (m_idx m)) k' (map Some (o ++ mapping_of c) ++ skipn (length (mapping_of c)) rest)))).
    { intros Q. apply data_all; [lia|exact H|rewrite <- Q; exact LR]. }
    assert (ONE : map1 tr std3 c = [c] -> R (SStore "tmp" (EPost "len2") (EVar "c")) st (Norm (ws (Some (zlen (o ++ [c]))) (Some (zlen p)) (Some c) (Some (m_idx m)) k (map Some (o ++ [c]) ++ skipn (length [c]) rest)))).
    { intros Q. rewrite Q in LR. destruct rest as [|x rest]; [change (1 <= 0) in LR; lia|]. apply store_one. exact H. }
    assert (NONE : forall (F : cst -> outcome) s, R s st (F st) -> R s st (F (ws (Some (zlen (o ++ []))) (Some (zlen p)) (Some c) (Some (m_idx m)) k (map Some (o ++ []) ++ skipn (length (@nil Z)) rest)))).
    { intros F s Q. rewrite app_nil_r. exact Q. }
    cut (exists k', R (match w_body with SSeq _ (SSeq _ s) => s | s => s end) st ((if status_eqb (status_of c) Ignored then Cnt else Norm) (ws (Some (zlen (o ++ map1 tr std3 c))) (Some (zlen p)) (Some c) (Some (m_idx m)) k' (map Some (o ++ map1 tr std3 c) ++ skipn (length (map1 tr std3 c)) rest)))).
    { intros (k' & Q). exists k'. exact (PR _ _ Q). }
    unfold w_body. cbv iota. unfold map1 in *. clear LR.
    destruct (status_of c) eqn:S; cbn [status_eqb].
    - exists k. eapply (chain st c m j); [reflexivity|exact M|lia|]. rewrite S. exact (ONE eq_refl).
    - destruct (MANY eq_refl) as (k' & Q). exists k'. eapply (chain st c m j); [reflexivity|exact M|lia|]. rewrite S. exact Q.
    - exists k. eapply (chain st c m j); [reflexivity|exact M|lia|]. rewrite S. apply (NONE Cnt). apply runs_cnt.
    - destruct tr eqn:T.
      + destruct (MANY eq_refl) as (k' & Q). exists k'. eapply (chain st c m j); [reflexivity|exact M|lia|]. rewrite S. eapply (runs_if rt cl mono); [exists O; cc; reflexivity|]. cbn [snd]. rewrite t01_zero, T. exact Q.
      + exists k. eapply (chain st c m j); [reflexivity|exact M|lia|]. rewrite S. eapply (runs_if rt cl mono); [exists O; cc; reflexivity|]. cbn [snd]. rewrite t01_zero, T. exact (ONE eq_refl).
    - exists k. eapply (chain st c m j); [reflexivity|exact M|lia|]. rewrite S. exact (ONE eq_refl).
    - destruct std3 eqn:T.
      + exists k. eapply (chain st c m j); [reflexivity|exact M|lia|]. rewrite S. eapply (std_chain st c m j); [reflexivity|reflexivity|exact M|lia|tauto|]. rewrite S, T. apply (NONE Norm). apply runs_skip.
      + destruct (MANY eq_refl) as (k' & Q). exists k'. eapply (chain st c m j); [reflexivity|exact M|lia|]. rewrite S. eapply (std_chain st c m j); [reflexivity|reflexivity|exact M|lia|tauto|]. rewrite S, T. exact Q.
    - destruct std3 eqn:T.
      + exists k. eapply (chain st c m j); [reflexivity|exact M|lia|]. rewrite S. eapply (std_chain st c m j); [reflexivity|reflexivity|exact M|lia|tauto|]. rewrite S, T. apply (NONE Norm). apply runs_skip.
      + exists k. eapply (chain st c m j); [reflexivity|exact M|lia|]. rewrite S. eapply (std_chain st c m j); [reflexivity|reflexivity|exact M|lia|tauto|]. rewrite S, T. exact (ONE eq_refl).
  Qed.
  Lemma skipn_two : forall A (a b : nat) (x : list A), skipn b (skipn a x) = skipn (a + b) x.
  Proof. induction a as [|a IH]; intros b x; [reflexivity|]. destruct x as [|y x]; [destruct b; reflexivity|]. exact (IH b x). Qed.
  Lemma write_runs : forall r p o a b k rest, l = p ++ r -> zlen o + 18 * zlen r < two64 -> zlen (uts46_map tr std3 r) <= zlen rest ->
    exists it c mp k', R w_loop (ws (Some (zlen o)) (Some (zlen p)) a b k (map Some o ++ rest))
      (Norm (ws (Some (zlen (o ++ uts46_map tr std3 r))) it c mp k' (map Some (o ++ uts46_map tr std3 r) ++ skipn (length (uts46_map tr std3 r)) rest))).
  Proof.
    induction r as [|c r IH]; intros p o a b k rest E H LR; pose proof (f_equal zlen E) as Z1; rewrite zlen_app in Z1; pose proof (z0 _ p).
    - cbn. rewrite app_nil_r. do 4 eexists. eapply (runs_loop_end rt cl mono).
      + exists O. cc. rewrite (u64_id (zlen l + 1 - 1)) by (unfold two64 in *; pose proof (z0 _ l); lia). reflexivity.
      + cbn [snd]. change (zlen (@nil Z)) with 0 in Z1. destruct (zlen p <? zlen l + 1 - 1) eqn:Q; [lia|reflexivity].
    - pose proof (z0 _ r). rewrite zlen_cons in H, Z1. unfold uts46_map in LR |- *. cbn [flat_map] in LR |- *. fold (uts46_map tr std3 r) in LR |- *. rewrite zlen_app in LR.
      pose proof (proj1 (map1_short tr std3 c)) as MS. pose proof (z0 _ (map1 tr std3 c)). pose proof (z0 _ (uts46_map tr std3 r)).
      destruct (write_step p c r o a b k rest E ltac:(lia) ltac:(lia)) as (mp & k1 & A).
      destruct (IH (p ++ [c]) (o ++ map1 tr std3 c) (Some c) mp k1 (skipn (length (map1 tr std3 c)) rest)) as (it & c' & mp' & k' & B).
      + rewrite <- app_assoc. exact E.
      + rewrite zlen_app. lia.
      + unfold zlen in *. rewrite skipn_length. lia.
      + exists it, c', mp', k'. rewrite skipn_two, <- app_length in B. rewrite <- app_assoc in B.
        assert (CO : evals rt cl (EBin Lt (EVar "it") (EBin Sub (EVar "len") (int 1))) (ws (Some (zlen o)) (Some (zlen p)) a b k (map Some o ++ rest)) (I32, 1) (ws (Some (zlen o)) (Some (zlen p)) a b k (map Some o ++ rest))).
        { exists O. cc. rewrite (u64_id (zlen l + 1 - 1)) by (unfold two64 in *; lia). destruct (zlen p <? zlen l + 1 - 1) eqn:Q; [reflexivity|lia]. }
        assert (ST : forall x y z w t, R (SExp (EPost "it")) (ws x (Some (zlen p)) y z w t) (Norm (ws x (Some (zlen (p ++ [c]))) y z w t))).
        { intros. eapply (runs_exp rt cl). exists O. cc. rewrite (u64_id (zlen p + 1)) by (unfold two64 in *; lia). rewrite zlen_app. reflexivity. }
        destruct (status_eqb (status_of c) Ignored).
        * eapply (runs_loop_cont rt cl mono); [exact CO|discriminate|exact A|apply ST|exact B].
        * eapply (runs_loop_next rt cl mono); [exact CO|discriminate|exact A|apply ST|exact B].
  Qed.
  Lemma write_body : forall tmp, zlen (uts46_map tr std3 l) + 1 <= zlen tmp -> exists st, R (f_body c_tr46_write) (ws None None None None None tmp) (Ret (I32, 0) st) /\
    arrs st = [("domain_u32", (U32, map Some (l ++ [0]))); ("tmp", (U32, map Some (uts46_map tr std3 l ++ [0]) ++ skipn (length (uts46_map tr std3 l) + 1) tmp)); ("u32_normalize", (U64, [Some (zlen (uts46_map tr std3 l) + 1)]))].
  Proof.
    intros tmp H. pose proof (z0 _ l). unfold two64 in LL. destruct (write_runs l [] [] None None None tmp eq_refl ltac:(change (zlen (@nil Z)) with 0; unfold two64; lia) ltac:(lia)) as (it & c & mp & k & A).
    set (T := uts46_map tr std3 l) in *. cbn [app map] in A. change (zlen (@nil Z)) with 0 in A. pose proof (z0 _ T).
    assert (T18 : zlen T <= 18 * zlen l). { unfold T. clear. induction l as [|c x IH]; [reflexivity|]. unfold uts46_map in *. cbn [flat_map]. rewrite zlen_app, zlen_cons. pose proof (proj1 (map1_short tr std3 c)). lia. }
    destruct (skipn (length T) tmp) as [|x rest] eqn:K. { apply (f_equal (@length _)) in K. rewrite skipn_length in K. unfold zlen in *. cbn in K. lia. }
    assert (K2 : skipn (length T + 1) tmp = rest). { rewrite <- skipn_two, K. reflexivity. }
    change (f_body c_tr46_write) with (SSeq (SExp (EAsg "len2" (int 0))) (SSeq (SSeq (SExp (EAsg "it" (int 0))) w_loop) (SSeq (SStore "tmp" (EVar "len2") (int 0)) (SSeq (SStore "u32_normalize" (int 0) (EBin Add (EVar "len2") (int 1))) (SReturn (int 0)))))).
    eexists. split.
    - eapply (runs_seq rt cl mono); [eapply (runs_exp rt cl); exists O; cc; reflexivity|]. eapply (runs_init rt cl mono); [eapply (runs_exp rt cl); exists O; cc; reflexivity|].
      eapply (runs_seq rt cl mono); [exact A|].
      eapply (runs_seq rt cl mono). { exists O. split; [|discriminate]. cc. rewrite set_cell_out. cbn. reflexivity. }
      eapply (runs_seq rt cl mono). { exists O. split; [|discriminate]. cc. rewrite (u64_id (zlen T + 1)) by (unfold two64; lia). change (set_cell [None] 0 (zlen T + 1)) with (Val [Some (zlen T + 1)]). cbn. reflexivity. }
      eapply (runs_ret rt cl). exists O. reflexivity.
    - cbn. rewrite K2, (map_app (@Some Z) T [0]), <- app_assoc. reflexivity.
  Qed.
End Tr46.
