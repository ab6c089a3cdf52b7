(** The text of lib/tr46map.c: searching the tables. *)
From Coq Require Import String.
From Verif Require Import Base PunyBase DataTypes Bsearch BsearchProofs Tables TablesProofs Gentr46 Gentr46Proofs Tr46Map Tr46Valid CLang CLogic CLeaf CDecode CEncode CBidi CTables SpecCPuny SpecCTables CSearch CTablesProofs CMap.
Local Open Scope string_scope.
Local Open Scope list_scope.
Local Open Scope Z_scope.
Arguments compar : simpl never.

Lemma fill_bounds : forall c q m, Forall (fun b => 0 <= b <= 255) q -> fill_map c q = Ok m -> 0 <= m_cp1 m < 16777216 /\ 0 <= m_range m < 65536 /\ q <> [].
Proof.
  intros c q m B F. unfold fill_map in F.
  assert (V : forall a b r, fill_value a b r = Ok m -> m_cp1 m = a /\ m_range m = b).
  { intros a b r H. destruct r as [|x [|y [|z r]]]; try discriminate H. cbn [fill_value] in H. apply (f_equal (fun o => match o with Ok x => x | _ => m end)) in H. cbv beta iota zeta in H. subst m. auto. }
  assert (W : forall x, In x q -> 0 <= x <= 255) by (apply Forall_forall; exact B).
  destruct (c <=? 255).
  - destruct q as [|p0 [|p1 r]]; try discriminate F. apply V in F. destruct F as (-> & ->). pose proof (W p0 ltac:(cbn; auto)). pose proof (W p1 ltac:(cbn; auto)). split; [lia|]. split; [lia|discriminate].
  - destruct (c <=? 65535).
    + destruct q as [|p0 [|p1 [|p2 [|p3 r]]]]; try discriminate F. apply V in F. destruct F as (-> & ->). pose proof (word16 p0 p1 (W p0 ltac:(cbn; auto)) (W p1 ltac:(cbn; auto))). pose proof (word16 p2 p3 (W p2 ltac:(cbn; auto)) (W p3 ltac:(cbn; auto))).
      split; [lia|]. split; [lia|discriminate].
    + destruct q as [|p0 [|p1 [|p2 [|p3 [|p4 r]]]]]; try discriminate F. apply V in F. destruct F as (-> & ->). pose proof (word24 p0 p1 p2 (W p0 ltac:(cbn; auto)) (W p1 ltac:(cbn; auto)) (W p2 ltac:(cbn; auto))). pose proof (word16 p3 p4 (W p3 ltac:(cbn; tauto)) (W p4 ltac:(cbn; tauto))).
      split; [lia|]. split; [lia|discriminate].
Qed.
Lemma skip_short : forall (tbl : list Z) p, 0 <= p -> skipn (Z.to_nat p) tbl <> [] -> p < zlen tbl.
Proof. intros tbl p P N. destruct (Z_lt_le_dec p (zlen tbl)) as [L|L]; [exact L|]. elim N. apply skipn_all2. unfold zlen in L. lia. Qed.
Lemma skip_bytes : forall (tbl : list Z) k, Forall (fun b => 0 <= b <= 255) tbl -> Forall (fun b => 0 <= b <= 255) (skipn k tbl).
Proof. intros tbl k F. rewrite Forall_forall in *. intros x I. apply F. rewrite <- (firstn_skipn k tbl). apply in_or_app. auto. Qed.

Lemma compare_map_text : forall tbl c p m, Forall (fun b => 0 <= b <= 255) tbl -> zlen tbl < top -> 0 <= c < two32 -> 0 <= p -> fill_map c (skipn (Z.to_nat p) tbl) = Ok m ->
  compar c_compare_idna_map [(U32, c); (U64, p)] [(U8, map Some tbl); fresh U32; fresh I32; fresh I32; fresh I32; fresh I32]
  = Val (if c <? m_cp1 m then -1 else if m_hi m <? c then 1 else 0).
Proof.
  intros tbl c p m B L C P F. destruct (fill_bounds c _ m (skip_bytes tbl _ B) F) as (B1 & B2 & NE). pose proof (skip_short tbl p P NE) as PL. unfold top in L.
  set (rt := types (mkprog no_lib [("compar", c_compare_idna_map)])). set (cl := calls (mkprog no_lib [("compar", c_compare_idna_map)]) 0).
  change (match exec rt cl 0 (f_body c_compare_idna_map) (mkst [("c", (U32, Some (cast U32 U32 c))); ("p", (I64, Some (cast U64 I64 p))); ("value", (U32, None))] ([("bytes", (U8, map Some tbl))] ++ map_arrays None None None None None))
    with Ret v _ => Val (cast (fst v) I32 (snd v)) | Out => Fuel | _ => UB end = Val (if c <? m_cp1 m then -1 else if m_hi m <? c then 1 else 0)).
  replace (cast U64 I64 p) with p by (unfold cast; cbn [fits]; rewrite conv_i64; [reflexivity|lia]). change (cast U32 U32 c) with c.
  destruct (fill_exec rt cl [("bytes", (U8, map Some tbl))] "bytes" tbl c eq_refl eq_refl B ltac:(unfold top; lia) C 0%nat p m None None None None None None P F) as (p' & v' & X).
  unfold c_compare_idna_map. cbn [f_body]. rewrite exec_seq. change (mkst [("c", (U32, Some c)); ("p", (I64, Some p)); ("value", (U32, None))] ([("bytes", (U8, map Some tbl))] ++ map_arrays None None None None None)) with (fs [("bytes", (U8, map Some tbl))] c p None None None None None None).
  rewrite X. cbn [after]. clear X. cbn. change (cell [Some (m_cp1 m)] 0) with (Val (m_cp1 m)). cc. destruct (c <? m_cp1 m) eqn:Q1; cc; [reflexivity|].
  change (cell [Some (m_cp1 m)] 0) with (Val (m_cp1 m)). cc. change (cell [Some (m_range m)] 0) with (Val (m_range m)). cc. rewrite (u32_id (m_range m)) by lia. rewrite (u32_id (m_cp1 m + m_range m)) by lia. fold (m_hi m).
  destruct (m_hi m <? c) eqn:Q2; reflexivity.
Qed.
Arguments calls : simpl never.
Arguments types : simpl never.
Arguments table_program : simpl never.

Section Get.
  Variables (bs : bsearch_fun) (ts : Z).
  Hypothesis C11 : c11_bsearch bs.
  Notation P := (table_program bs ts).
  Lemma lib_map : forall d n t1 c t2 k t3 size a, calls P d n "bsearch _compare_idna_map" [(t1, c); (t2, k); (t3, size)] [a] =
    rbind (bs (fun i => compar c_compare_idna_map [(U32, c); (U64, i * size)] [a; fresh U32; fresh I32; fresh I32; fresh I32; fresh I32]) k) (fun i => Val (if i =? -1 then -1 else i * size)).
  Proof. intros d n. destruct d; reflexivity. Qed.
  Lemma ty_map : types P "bsearch _compare_idna_map" = I64. Proof. reflexivity. Qed.
  Definition table_ok (c : Z) (tbl : list Z) (size : Z) (R : list idnamap) : Prop :=
    Forall (fun b => 0 <= b <= 255) tbl /\ zlen tbl < top /\ zlen tbl / size = zlen R /\ (exists b, sorted_from m_cp1 m_hi b R = true) /\
    (forall i m, nth_error R (Z.to_nat i) = Some m -> 0 <= i -> fill_map c (skipn (Z.to_nat (i * size)) tbl) = Ok m).
  Lemma search_text : forall d n c tbl size R t2 t3, 0 <= c < two32 -> 0 < size <= 8 -> table_ok c tbl size R ->
    match find (covers m_cp1 m_hi c) R with
    | Some m => exists p, 0 <= p < top /\ calls P d n "bsearch _compare_idna_map" [(U32, c); (t2, zlen tbl / size); (t3, size)] [(U8, map Some tbl)] = Val p /\ fill_map c (skipn (Z.to_nat p) tbl) = Ok m
    | None => calls P d n "bsearch _compare_idna_map" [(U32, c); (t2, zlen tbl / size); (t3, size)] [(U8, map Some tbl)] = Val (-1)
    end.
  Proof.
    intros d n c tbl size R t2 t3 C S (B & L & E & (b & SO) & N). rewrite lib_map, E.
    pose proof (bs_intervals m_cp1 m_hi bs R b c (fun i => compar c_compare_idna_map [(U32, c); (U64, i * size)] [(U8, map Some tbl); fresh U32; fresh I32; fresh I32; fresh I32; fresh I32]) C11 SO) as X.
    assert (H : forall i x, nth_error R (Z.to_nat i) = Some x -> 0 <= i < zlen R -> compar c_compare_idna_map [(U32, c); (U64, i * size)] [(U8, map Some tbl); fresh U32; fresh I32; fresh I32; fresh I32; fresh I32] = Val (if c <? m_cp1 x then -1 else if m_hi x <? c then 1 else 0)).
    { intros i x NE Hi. apply compare_map_text; auto; [nia|]. apply N; [exact NE|lia]. }
    specialize (X H). destruct (find (covers m_cp1 m_hi c) R) as [m|].
    - destruct X as (i & Hi & X & NE). rewrite X. cbn [rbind]. destruct (i =? -1) eqn:Q; [lia|]. exists (i * size). pose proof (N i m NE ltac:(lia)) as F. destruct (fill_bounds c _ m (skip_bytes tbl _ B) F) as (_ & _ & NN). pose proof (skip_short tbl (i * size) ltac:(nia) NN).
      split; [nia|]. split; [reflexivity|exact F].
    - rewrite X. reflexivity.
  Qed.
  Definition gtabs (t8 t16 t24 : list Z) : list (string * carr) := [byte_array "idna_map_8" t8; byte_array "idna_map_16" t16; byte_array "idna_map_24" t24].
  Definition gs (t8 t16 t24 : list Z) (c : Z) (p : option Z) (a b d e f : option Z) : cst := mkst [("c", (U32, Some c)); ("p", (I64, p)); ("value", (U32, None))] (gtabs t8 t16 t24 ++ map_arrays a b d e f).
  Variables t8 t16 t24 : list Z.
  Variables s8 s16 s24 : Z.
  Hypothesis E8 : s8 = zlen t8. Hypothesis E16 : s16 = zlen t16. Hypothesis E24 : s24 = zlen t24.
  Definition rest_text : stmt := Eval cbn in match f_body (c_get_idna_map s8 s16 s24) with SSeq _ t => t | s => s end.
  Definition first_text : stmt := Eval cbn in match f_body (c_get_idna_map s8 s16 s24) with SSeq s _ => s | s => s end.
  Definition zero_map := IdnaMap 0 0 0 0 0.
  Lemma rest_null : forall d n c a b e f g, 0 <= c < two32 -> exists st, exec (types P) (calls P d) n rest_text (gs t8 t16 t24 c (Some (-1)) a b e f g) = Ret (I32, -1) st /\ arrs st = gtabs t8 t16 t24 ++ map_arrays (Some 0) (Some 0) (Some 0) (Some 0) (Some 0).
  Proof. intros d n c a b e f g C. eexists. split; [unfold rest_text; cbn; cc; reflexivity|reflexivity]. Qed.
  Lemma rest_found : forall d n c p m tbl a b e f g, 0 <= c <= 0xffffff -> 0 <= p < top -> tbl = (if c <=? 255 then t8 else if c <=? 65535 then t16 else t24) -> Forall (fun b => 0 <= b <= 255) tbl -> zlen tbl < top ->
    fill_map c (skipn (Z.to_nat p) tbl) = Ok m ->
    exists st, exec (types P) (calls P d) n rest_text (gs t8 t16 t24 c (Some p) a b e f g) = Ret (I32, 0) st /\ arrs st = gtabs t8 t16 t24 ++ map_arrays (Some (m_cp1 m)) (Some (m_range m)) (Some (m_n m)) (Some (m_off m)) (Some (m_idx m)).
  Proof.
    intros d n c p m tbl a b e f g C PP TB B L F. unfold rest_text. rewrite exec_seq. assert (Q : (p =? -1) = false) by lia. 
    match goal with |- context [exec ?rt ?cl n (SIf ?x ?y SSkip) ?st] => replace (exec rt cl n (SIf x y SSkip) st) with (Norm st) by (symmetry; cbn; cc; rewrite Q; reflexivity) end. cbn [after].
    rewrite exec_seq. change (gs t8 t16 t24 c (Some p) a b e f g) with (fs (gtabs t8 t16 t24) c p None a b e f g).
    assert (IFS : forall k s t, 0 <= k < 65536 -> exec (types P) (calls P d) n (SIf (EBin Le (EVar "c") (int k)) s t) (fs (gtabs t8 t16 t24) c p None a b e f g) = if c <=? k then exec (types P) (calls P d) n s (fs (gtabs t8 t16 t24) c p None a b e f g) else exec (types P) (calls P d) n t (fs (gtabs t8 t16 t24) c p None a b e f g)).
    { intros k s t K. cbn [exec]. rewrite (le_c (types P) (calls P d) (gtabs t8 t16 t24) c n k) by exact K. cbn [obind snd]. destruct (c <=? k); reflexivity. }
    rewrite !IFS by lia. destruct (c <=? 255); [|destruct (c <=? 65535)]; subst tbl.
    - destruct (fill_exec (types P) (calls P d) (gtabs t8 t16 t24) "idna_map_8" t8 c eq_refl eq_refl B L ltac:(unfold two32; lia) n p m None a b e f g (proj1 PP) F) as (p' & v' & X). change (c_fill_map "idna_map_8") with (c_fill_map "idna_map_8") in X. rewrite X. cbn [after]. eexists. split; reflexivity.
    - destruct (fill_exec (types P) (calls P d) (gtabs t8 t16 t24) "idna_map_16" t16 c eq_refl eq_refl B L ltac:(unfold two32; lia) n p m None a b e f g (proj1 PP) F) as (p' & v' & X). rewrite X. cbn [after]. eexists. split; reflexivity.
    - destruct (fill_exec (types P) (calls P d) (gtabs t8 t16 t24) "idna_map_24" t24 c eq_refl eq_refl B L ltac:(unfold two32; lia) n p m None a b e f g (proj1 PP) F) as (p' & v' & X). rewrite X. cbn [after]. eexists. split; reflexivity.
  Qed.
  Lemma get_text : forall c a b d e f, 0 <= c < two32 -> let size := if c <=? 255 then 5 else if c <=? 65535 then 7 else 8 in let tbl := if c <=? 255 then t8 else if c <=? 65535 then t16 else t24 in
    forall R, (c <= 0xffffff -> table_ok c tbl size R) ->
    match (if c <=? 0xffffff then find (covers m_cp1 m_hi c) R else None) with
    | Some m => t_returns bs ts (c_get_idna_map s8 s16 s24) [(U32, c)] (gtabs t8 t16 t24 ++ map_arrays a b d e f) 0 (gtabs t8 t16 t24 ++ map_arrays (Some (m_cp1 m)) (Some (m_range m)) (Some (m_n m)) (Some (m_off m)) (Some (m_idx m)))
    | None => t_returns bs ts (c_get_idna_map s8 s16 s24) [(U32, c)] (gtabs t8 t16 t24 ++ map_arrays a b d e f) (-1) (gtabs t8 t16 t24 ++ map_arrays (Some 0) (Some 0) (Some 0) (Some 0) (Some 0))
    end.
  Proof.
    intros c a b d e f C size tbl R T.
    assert (FIRST : forall n p, (c <= 0xffffff -> calls P 1 n "bsearch _compare_idna_map" [(U32, c); (U64, zlen tbl / size); (I32, size)] [(U8, map Some tbl)] = Val p) -> (0xffffff < c -> p = -1) ->
      (c <= 0xffffff -> zlen tbl < top) -> exec (types P) (calls P 1) n first_text (gs t8 t16 t24 c None a b d e f) = Norm (gs t8 t16 t24 c (Some p) a b d e f)).
    { intros n p K1 K2 K3. unfold first_text. unfold top in K3. cbn. cc. 
      destruct (c <=? 255) eqn:C1; [|cbn; destruct (c <=? 65535) eqn:C2; [|cbn; destruct (c <=? 16777215) eqn:C3]]; cbn; cc.
      - specialize (K1 ltac:(lia)). specialize (K3 ltac:(lia)). unfold tbl, size in *. rewrite E8. rewrite quot_div by (try apply z0; lia). assert (Q : 0 <= zlen t8 / 5 <= zlen t8) by (split; [apply Z.div_pos; [apply z0|lia]|apply Z.div_le_upper_bound; [lia|pose proof (z0 _ t8); lia]]). rewrite (u64_id (zlen t8 / 5)) by (unfold two64; lia). rewrite K1, ty_map. reflexivity.
      - specialize (K1 ltac:(lia)). specialize (K3 ltac:(lia)). unfold tbl, size in *. rewrite E16. rewrite quot_div by (try apply z0; lia). assert (Q : 0 <= zlen t16 / 7 <= zlen t16) by (split; [apply Z.div_pos; [apply z0|lia]|apply Z.div_le_upper_bound; [lia|pose proof (z0 _ t16); lia]]). rewrite (u64_id (zlen t16 / 7)) by (unfold two64; lia). rewrite K1, ty_map. reflexivity.
      - specialize (K1 ltac:(lia)). specialize (K3 ltac:(lia)). unfold tbl, size in *. rewrite E24. rewrite quot_div by (try apply z0; lia). assert (Q : 0 <= zlen t24 / 8 <= zlen t24) by (split; [apply Z.div_pos; [apply z0|lia]|apply Z.div_le_upper_bound; [lia|pose proof (z0 _ t24); lia]]). rewrite (u64_id (zlen t24 / 8)) by (unfold two64; lia). rewrite K1, ty_map. reflexivity.
      - rewrite (K2 ltac:(lia)). reflexivity. }
    assert (SZ : 0 < size <= 8) by (unfold size; destruct (c <=? 255), (c <=? 65535); lia).
    assert (RUN : forall p v m, (forall n, exists st, exec (types P) (calls P 1) n rest_text (gs t8 t16 t24 c (Some p) a b d e f) = Ret (I32, v) st /\ arrs st = gtabs t8 t16 t24 ++ map_arrays (Some (m_cp1 m)) (Some (m_range m)) (Some (m_n m)) (Some (m_off m)) (Some (m_idx m))) ->
      (forall n, exec (types P) (calls P 1) n first_text (gs t8 t16 t24 c None a b d e f) = Norm (gs t8 t16 t24 c (Some p) a b d e f)) ->
      t_returns bs ts (c_get_idna_map s8 s16 s24) [(U32, c)] (gtabs t8 t16 t24 ++ map_arrays a b d e f) v (gtabs t8 t16 t24 ++ map_arrays (Some (m_cp1 m)) (Some (m_range m)) (Some (m_n m)) (Some (m_off m)) (Some (m_idx m)))).
    { intros p v m RE FI. exists O. intros n _. unfold run. destruct (RE n) as (st & X & A). change (f_body (c_get_idna_map s8 s16 s24)) with (SSeq first_text rest_text). rewrite exec_seq.
      change (mkst (declare (c_get_idna_map s8 s16 s24) [(U32, c)]) (gtabs t8 t16 t24 ++ map_arrays a b d e f)) with (gs t8 t16 t24 c None a b d e f). rewrite FI. cbn [after]. rewrite X, A. reflexivity. }
    destruct (c <=? 16777215) eqn:C3.
    - specialize (T ltac:(lia)). destruct (find (covers m_cp1 m_hi c) R) as [m|] eqn:FD.
      + pose proof (search_text 1 0 c tbl size R U64 I32 C SZ T) as S0. rewrite FD in S0. destruct S0 as (p & PP & K & F). apply (RUN p 0 m).
        * intros n. apply (rest_found 1 n c p m tbl); auto; [lia| |]; [exact (proj1 T)|exact (proj1 (proj2 T))].
        * intros n. apply FIRST; [|lia|intros _; exact (proj1 (proj2 T))]. intros _. rewrite lib_map in *. exact K.
      + apply (RUN (-1) (-1) zero_map).
        * intros n. apply rest_null. exact C.
        * intros n. apply FIRST; [|lia|intros _; exact (proj1 (proj2 T))]. intros _. pose proof (search_text 1 n c tbl size R U64 I32 C SZ T) as S1. rewrite FD in S1. exact S1.
    - apply (RUN (-1) (-1) zero_map).
      + intros n. apply rest_null. exact C.
      + intros n. apply FIRST; lia.
  Qed.
End Get.
