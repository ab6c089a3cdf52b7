(** The text of lib/tr46map.c: map_is and get_map_data. *)
From Coq Require Import String.
From Verif Require Import Base PunyBase DataTypes Bsearch BsearchProofs Tables TablesProofs Gentr46 Gentr46Proofs Tr46Map Tr46Valid CLang CLogic CLeaf CDecode CEncode CBidi CTables SpecCPuny SpecCTables CSearch CTablesProofs CMap.
Local Open Scope string_scope.
Local Open Scope list_scope.
Local Open Scope Z_scope.
Arguments calls : simpl never.
Arguments types : simpl never.
Arguments table_program : simpl never.

Lemma cell_some : forall (l : list Z) i x, nth_error l (Z.to_nat i) = Some x -> 0 <= i < zlen l -> cell (map Some l) i = Val x.
Proof. intros l i x. exact (cell_map _ (fun x => x) l i x). Qed.
Lemma map_is_exec : forall bs ts m flags F v, rd F (m_idx m) = Ok v -> 0 <= v < two32 -> 0 <= flags < two32 ->
  let mem := [("map->flag_index", (I32, [Some (m_idx m)])); ("idna_flags", (U32, map Some F))] in
  t_returns bs ts c_map_is [(U32, flags)] mem (if Z.land v flags =? flags then 1 else 0) mem.
Proof.
  intros bs ts m flags F v R V FL mem. unfold two32 in *. unfold rd in R. assert (Q : 0 <= m_idx m < zlen F). { unfold zlen. destruct (m_idx m <? 0) eqn:?; [discriminate R|]. destruct (nth_error F (Z.to_nat (m_idx m))) eqn:E; [|discriminate R]. assert (nth_error F (Z.to_nat (m_idx m)) <> None) as N by congruence. apply nth_error_Some in N. lia. }
  assert (NE : nth_error F (Z.to_nat (m_idx m)) = Some v). { destruct (m_idx m <? 0); [discriminate R|]. destruct (nth_error F (Z.to_nat (m_idx m))); [|discriminate R]. congruence. }
  exists O. intros n _. unfold run. cbn. change (cell [Some (m_idx m)] 0) with (Val (m_idx m)). cc. rewrite (cell_some F (m_idx m) v NE Q). cc.
  destruct ((v <? 0) || (flags <? 0)) eqn:B; [lia|]. cc. destruct (Z.land v flags =? flags); reflexivity.
Qed.

Lemma skipn_next : forall k (l : list Z) b r, skipn k l = b :: r -> r = skipn (1 + k) l.
Proof. induction k as [|k IH]; intros l b r S; destruct l as [|x l]; try discriminate S. - cbn in *. congruence. - exact (IH l b r S). Qed.
Section Data.
  Variables (bs : bsearch_fun) (ts : Z).
  Notation P := (table_program bs ts).
  Notation rt := (types P). Notation cl := (calls P 1).
  Lemma mono : forall n m f vs a, (n <= m)%nat -> cl n f vs a <> Fuel -> cl m f vs a = cl n f vs a. Proof. intros; now apply calls_mono. Qed.
  Variables (nm off : Z) (data : list Z).
  Hypothesis BD : Forall (fun b => 0 <= b <= 255) data.
  Hypothesis LD : zlen data < top.
  Definition dmem (dst : list (option Z)) : list (string * carr) := [("dst", (U32, dst)); ("map->nmappings", (I32, [Some nm])); ("map->offset", (I32, [Some off])); ("mapdata", (U8, map Some data))].
  Definition ds (n src cp : option Z) (d : Z) (dst : list (option Z)) : cst := mkst [("n", (I32, n)); ("src", (U64, src)); ("cp", (U32, cp)); ("d", (U64, Some d))] (dmem dst).
  Definition inner : stmt := Eval cbn in match f_body c_get_map_data with SSeq _ (SSeq _ (SSeq _ (SSeq (SLoop _ _ (SSeq _ (SSeq s _))) _))) => s | s => s end.
  Definition outer : stmt := Eval cbn in match f_body c_get_map_data with SSeq _ (SSeq _ (SSeq _ (SSeq s _))) => s | s => s end.
  Definition inner_body : stmt := Eval cbn in match inner with SLoop _ _ s => s | s => s end.
  Lemma skip_cons : forall p b r, 0 <= p -> skipn (Z.to_nat p) data = b :: r -> p < zlen data /\ nth_error data (Z.to_nat p) = Some b /\ r = skipn (Z.to_nat (p + 1)) data /\ 0 <= b <= 255.
  Proof.
    intros p b r PP S. assert (L : p < zlen data). { destruct (Z_lt_le_dec p (zlen data)) as [L|L]; [exact L|]. rewrite skipn_all2 in S; [discriminate S|unfold zlen in L; lia]. }
    split; [exact L|]. assert (NE : nth_error data (Z.to_nat p) = Some b). { rewrite <- (firstn_skipn (Z.to_nat p) data), nth_error_app2; rewrite firstn_length_le by (unfold zlen in L; lia); [|lia]. rewrite Nat.sub_diag, S. reflexivity. }
    split; [exact NE|]. split; [|rewrite Forall_forall in BD; apply BD; eapply nth_error_In; exact NE].
    replace (Z.to_nat (p + 1)) with (1 + Z.to_nat p)%nat by lia. exact (skipn_next _ _ _ _ S).
  Qed.
  Lemma inner_runs : forall s p cp v r n d dst, s = skipn (Z.to_nat p) data -> 0 <= p -> 0 <= cp < two32 -> stream_cp s cp = Ok (v, r) ->
    exists p', r = skipn (Z.to_nat p') data /\ 0 <= p' /\ 0 <= v < two32 /\ runs rt cl inner (ds (Some n) (Some p) (Some cp) d dst) (Norm (ds (Some n) (Some p') (Some v) d dst)).
  Proof.
    induction s as [|b s IH]; intros p cp v r n d dst E PP CP H; [discriminate H|]. cbn [stream_cp] in H.
    destruct (skip_cons p b s PP (eq_sym E)) as (L & NE & ES & B). pose proof (cell_some data p b NE ltac:(lia)) as CE. unfold top in LD. unfold two32 in CP.
    assert (L7 : 0 <= Z.land b 127 < 128) by (apply (land_mask b 7); lia).
    set (cp' := Z.lor (u32 (Z.shiftl cp 7)) (Z.land b 127)) in *.
    assert (C' : 0 <= cp' < 4294967296). { apply (lor_bound _ _ 32); [exact (u32_range (Z.shiftl cp 7))| |lia]. change (2 ^ 32) with 4294967296. lia. }
    change (u32 cp') with (u32 cp') in H. rewrite (u32_id cp') in H by exact C'.
    assert (BODY : runs rt cl inner_body (ds (Some n) (Some p) (Some cp) d dst) ((if Z.land b 128 =? 0 then Brk else Norm) (ds (Some n) (Some (p + 1)) (Some cp') d dst))).
    { assert (N2 : (b <? 0) = false) by lia. unfold inner_body. eapply (runs_seq rt cl mono).
      - eapply (runs_exp rt cl). exists O. cc. replace (cp <? 0) with false by lia. cc. rewrite CE. cc. rewrite N2. cc. rewrite (u32_id (Z.land b 127)) by lia.
        assert (N3 : (u32 (Z.shiftl cp 7) <? 0) || (Z.land b 127 <? 0) = false) by (pose proof (u32_range (Z.shiftl cp 7)); lia). rewrite N3. cbn. unfold cast. cbn. fold cp'. reflexivity.
      - eapply (runs_if rt cl mono).
        + exists O. cc. rewrite CE. cc. rewrite N2. cc. rewrite (u64_id (p + 1)) by (unfold two64; lia). reflexivity.
        + destruct (Z.land b 128 =? 0); [apply runs_brk|apply runs_skip]. }
    destruct (Z.land b 128 =? 0) eqn:Q.
    - apply (f_equal (fun o => match o with Ok x => x | _ => (v, r) end)) in H. cbv beta iota in H. assert (v = cp' /\ r = s) as (-> & ->) by (split; congruence). exists (p + 1). split; [exact ES|]. split; [lia|]. split; [exact C'|].
      apply (runs_loop_stop rt cl mono _ _ _ _ (I32, 1) (ds (Some n) (Some p) (Some cp) d dst) (Brk (ds (Some n) (Some (p + 1)) (Some cp') d dst))); [exists O; reflexivity|discriminate|exact BODY|exact I].
    - destruct (IH (p + 1) cp' v r n d dst ES ltac:(lia) C' H) as (p' & A1 & A2 & A3 & A4). exists p'. split; [exact A1|]. split; [exact A2|]. split; [exact A3|].
      eapply (runs_loop_next rt cl mono _ _ _ _ (I32, 1)); [exists O; reflexivity|discriminate|exact BODY|apply runs_skip|exact A4].
  Qed.
  Lemma outer_runs : forall k p l cp o rest, stream_cps k (skipn (Z.to_nat p) data) = Ok l -> 0 <= p -> Z.of_nat k <= zlen rest -> zlen o + Z.of_nat k < 64 ->
    exists src' cp' d', runs rt cl outer (ds (Some (Z.of_nat k)) (Some p) cp (zlen o) (map Some o ++ rest)) (Norm (ds (Some 0) src' cp' d' (map Some (o ++ l) ++ skipn k rest))).
  Proof.
    induction k as [|k IH]; intros p l cp o rest H PP LR LO.
    - cbn [stream_cps] in H. assert (l = []) as -> by congruence. rewrite app_nil_r. exists (Some p), cp, (zlen o). eapply (runs_loop_end rt cl mono _ _ _ _ (I32, 0)); [exists O; reflexivity|reflexivity].
    - cbn [stream_cps] in H. destruct (stream_cp (skipn (Z.to_nat p) data) 0) as [[v r]| | |] eqn:E; try discriminate H. cbn [bind] in H.
      destruct (inner_runs _ p 0 v r (Z.of_nat (S k)) (zlen o) (map Some o ++ rest) eq_refl PP ltac:(unfold two32; lia) E) as (p' & -> & P' & V & X).
      destruct (stream_cps k (skipn (Z.to_nat p') data)) as [t| | |] eqn:E2; try discriminate H. cbn [bind] in H. assert (l = v :: t) as -> by congruence.
      destruct rest as [|x rest]; [change (zlen (@nil (option Z))) with 0 in LR; lia|]. rewrite zlen_cons in LR. pose proof (z0 _ o) as ZO.
      destruct (IH p' t (Some v) (o ++ [v]) rest E2 P' ltac:(lia) ltac:(rewrite zlen_app, zlen_cons; change (zlen (@nil Z)) with 0; lia)) as (src' & cp' & d' & Y).
      replace (map Some (o ++ v :: t) ++ skipn (S k) (x :: rest)) with (map Some ((o ++ [v]) ++ t) ++ skipn k rest) by (rewrite <- app_assoc; reflexivity).
      exists src', cp', d'. unfold outer. fold inner_body. change (SLoop (EInt I32 1) SSkip inner_body) with inner. remember (Z.of_nat (S k)) as K eqn:HK.
      eapply (runs_loop_next rt cl mono).
      + exists O. cc. reflexivity.
      + replace (0 <? K) with true by lia. discriminate.
      + eapply (runs_seq rt cl mono); [eapply (runs_exp rt cl); exists O; cc; reflexivity|]. eapply (runs_seq rt cl mono); [exact X|].
        exists O. split; [|discriminate]. cc. rewrite set_cell_out. cbn. rewrite (u64_id (zlen o + 1)) by (unfold two64; lia). reflexivity.
      + eapply (runs_exp rt cl). exists O. cc. unfold arith. cbn. replace ((-2147483648 <=? K - 1) && (K - 1 <=? 2147483647)) with true by lia. cc. reflexivity.
      + replace (K - 1) with (Z.of_nat k) by lia. rewrite zlen_app, zlen_cons in Y. change (zlen (@nil Z)) with 0 in Y. rewrite map_app, <- app_assoc in Y. cbn [map app] in Y. exact Y.
  Qed.
  Lemma data_runs : forall l dst, stream_cps (Z.to_nat nm) (skipn (Z.to_nat off) data) = Ok l -> 0 <= off < 16384 -> 0 <= nm < 32 -> nm <= zlen dst ->
    t_returns bs ts c_get_map_data [] (dmem dst) nm (dmem (map Some l ++ skipn (Z.to_nat nm) dst)).
  Proof.
    intros l dst H OF NM LD2. destruct (outer_runs (Z.to_nat nm) off l None [] dst H ltac:(lia) ltac:(lia) ltac:(change (zlen (@nil Z)) with 0; lia)) as (src' & cp' & d' & X).
    rewrite Z2Nat.id in X by lia. cbn [map app] in X. change (zlen (@nil Z)) with 0 in X.
    assert (Y : runs rt cl (f_body c_get_map_data) (mkst (declare c_get_map_data []) (dmem dst)) (Ret (I32, nm) (ds (Some 0) src' cp' d' (map Some l ++ skipn (Z.to_nat nm) dst)))).
    { change (f_body c_get_map_data) with (SSeq (SExp (EAsg "d" (int 0))) (SSeq (SExp (EAsg "n" (EIdx "map->nmappings" (int 0)))) (SSeq (SExp (EAsg "src" (EIdx "map->offset" (int 0)))) (SSeq outer (SReturn (EIdx "map->nmappings" (int 0))))))).
      eapply (runs_seq rt cl mono); [eapply (runs_exp rt cl); exists O; cc; reflexivity|].
      eapply (runs_seq rt cl mono); [eapply (runs_exp rt cl); exists O; cc; change (cell [Some nm] 0) with (Val nm); cc; reflexivity|].
      eapply (runs_seq rt cl mono); [eapply (runs_exp rt cl); exists O; cc; change (cell [Some off] 0) with (Val off); cc; rewrite (u64_id off) by (unfold two64; lia); reflexivity|].
      eapply (runs_seq rt cl mono); [exact X|]. eapply (runs_ret rt cl). exists O. cc. change (cell [Some nm] 0) with (Val nm). cc. reflexivity. }
    destruct Y as (N & Y & _). exists N. intros n LE. unfold run. rewrite (runs_at rt cl mono _ _ _ N Y ltac:(discriminate) n LE). reflexivity.
  Qed.
End Data.
