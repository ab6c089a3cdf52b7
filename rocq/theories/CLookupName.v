(** The text of idn2_lookup_u8: how the name is put together. *)
From Coq Require Import String.
From Verif Require Import Base PunyBase Uenv Idna Lookup SpecLookup CLang CLogic CLeaf CDecode CEncode CLabel CBidi CMapData CLookup SpecCPuny SpecCLookup CLookupMap.
Local Open Scope string_scope.
Local Open Scope list_scope.
Local Open Scope Z_scope.
Arguments calls : simpl never.
Arguments types : simpl never.
Arguments lookup_program : simpl never.
Arguments Z.land : simpl never.
Arguments Z.lor : simpl never.

Lemma prefix_app : forall x y, prefix (map Some (x ++ y)) (zlen x) = Val x.
Proof.
  intros x y. unfold prefix. rewrite zlen_map, zlen_app. pose proof (z0 _ x). pose proof (z0 _ y). replace ((0 <=? zlen x) && (zlen x <=? zlen x + zlen y)) with true by lia.
  unfold zlen. rewrite Nat2Z.id, map_app. rewrite <- (map_length (@Some Z) x), firstn_app, firstn_all, Nat.sub_diag, firstn_O, app_nil_r. clear. induction x as [|c x IH]; [reflexivity|]. cbn [map fold_right]. rewrite IH. reflexivity.
Qed.
Lemma skipn_map : forall x y, skipn (Z.to_nat (zlen x)) (map Some (x ++ y)) = map (@Some Z) y.
Proof. intros x y. unfold zlen. rewrite Nat2Z.id, map_app. rewrite <- (map_length (@Some Z) x), skipn_app, skipn_all, Nat.sub_diag. reflexivity. Qed.
Lemma part_mid : forall a x y, part (map Some (a ++ x ++ y)) (zlen a) (zlen x) = Val x.
Proof.
  intros a x y. unfold part. rewrite zlen_map, !zlen_app. pose proof (z0 _ a). pose proof (z0 _ x). pose proof (z0 _ y). replace ((0 <=? zlen a) && (zlen a <=? zlen a + (zlen x + zlen y))) with true by lia.
  rewrite skipn_map. apply prefix_app.
Qed.
Lemma find_end_app : forall x c y p, ~ In 46 x -> ~ In 0 x -> c = 46 \/ c = 0 -> find_end (map Some (x ++ c :: y)) p = Val (p + zlen x).
Proof.
  induction x as [|a x IH]; intros c y p D N C; cbn [app map find_end].
  - replace ((c =? 46) || (c =? 0)) with true by lia. change (zlen (@nil Z)) with 0. f_equal. lia.
  - cbn [In] in D, N. replace ((a =? 46) || (a =? 0)) with false by (symmetry; apply orb_false_iff; split; apply Z.eqb_neq; intuition congruence). rewrite IH by tauto. rewrite zlen_cons. f_equal. lia.
Qed.

Section Name.
  Variable U : uenv.
  Variable lab : list Z -> Z -> Z + list Z.
  Hypothesis LAB : label_like lab.
  Notation P := (lookup_program U lab).
  Notation rt := (types P). Notation cl := (calls P 1).
  Notation R := (runs rt cl).
  Notation mono := (lk_mono U lab).
  Variable flags : Z.
  Variable s : list Z.
  Hypothesis LS : zlen s < 9223372036854775807.
  Hypothesis BS : Forall (fun b => 0 < b <= 255) s.
  Definition nmem (buf : list (option Z)) : list (string * carr) := [("src", (U8, map Some (s ++ [0]))); ("_lookupname", (U8, buf)); ("malloc", (U64, [None]))].
  Definition ns (nl p e ll tl rc k : option Z) (buf : list (option Z)) : cst :=
    mkst [("flags", (I32, Some flags)); ("lookupnamelen", (U64, nl)); ("p", (U64, p)); ("end", (U64, e)); ("labellen", (U64, ll)); ("tmplen", (U64, tl)); ("rc", (I32, rc)); ("k", (U64, k))] (nmem buf).

  Section Label.
    (** The string, the label we are at, and what ends it. *)
    Variables (pre x : list Z) (c : Z) (post : list Z).
    Hypothesis SX : s ++ [0] = pre ++ x ++ c :: post.
    Hypothesis DX : ~ In 46 x.
    Hypothesis NX : ~ In 0 x.
    Hypothesis CX : c = 46 \/ c = 0.
    Lemma lens : 0 <= zlen pre /\ 0 <= zlen x /\ zlen pre + zlen x <= zlen s.
    Proof. pose proof (f_equal zlen SX) as E. rewrite !zlen_app, !zlen_cons in E. change (zlen (@nil Z)) with 0 in E. pose proof (z0 _ pre). pose proof (z0 _ x). pose proof (z0 _ post). lia. Qed.
    Lemma x_ok : match lab x flags with inl rc => rc <> 0 /\ -2147483648 <= rc <= 2147483647 | inr t => Forall (fun b => 0 <= b <= 255) t /\ zlen t <= 63 end.
    Proof.
      destruct lens as (A & B & C). apply LAB; [|assumption|unfold two64; lia]. apply Forall_forall. intros b Q.
      assert (I : In b (s ++ [0])) by (rewrite SX; apply in_app_iff; right; apply in_app_iff; left; exact Q). apply in_app_iff in I. destruct I as [I|[I|[]]]; [exact (proj1 (Forall_forall _ _) BS b I)|]. subst b. contradiction.
    Qed.
    Lemma l_strchrnul : forall n t, cl n "strchrnul '.'" [(t, zlen pre)] [(U8, map Some (s ++ [0]))] = Val (zlen pre + zlen x).
    Proof.
      intros n t. change (cl n "strchrnul '.'" [(t, zlen pre)] [(U8, map Some (s ++ [0]))]) with
        (if (0 <=? zlen pre) && (zlen pre <=? zlen (map Some (s ++ [0]))) then find_end (skipn (Z.to_nat (zlen pre)) (map Some (s ++ [0]))) (zlen pre) else UB).
      rewrite SX. rewrite skipn_map, find_end_app by assumption. rewrite zlen_map, !zlen_app, zlen_cons. pose proof (z0 _ pre). pose proof (z0 _ x). pose proof (z0 _ post).
      replace ((0 <=? zlen pre) && (zlen pre <=? zlen pre + (zlen x + (1 + zlen post)))) with true by lia. reflexivity.
    Qed.
    Lemma l_rc : forall n a b d, cl n "label" [(a, zlen pre); (b, zlen x); (d, flags)] [(U8, map Some (s ++ [0]))] = Val (match lab x flags with inl rc => rc | inr _ => 0 end).
    Proof.
      intros. change (cl n "label" [(a, zlen pre); (b, zlen x); (d, flags)] [(U8, map Some (s ++ [0]))]) with (on_part (fun s => Val (match lab s flags with inl rc => rc | inr _ => 0 end)) (zlen pre) (zlen x) (map Some (s ++ [0]))).
      unfold on_part. rewrite SX, part_mid. reflexivity.
    Qed.
    Lemma l_len : forall n a b d t, lab x flags = inr t -> cl n "label tmplen" [(a, zlen pre); (b, zlen x); (d, flags)] [(U8, map Some (s ++ [0]))] = Val (zlen t).
    Proof.
      intros n a b d t E. change (cl n "label tmplen" [(a, zlen pre); (b, zlen x); (d, flags)] [(U8, map Some (s ++ [0]))]) with (on_part (fun s => match lab s flags with inr t => Val (zlen t) | inl _ => UB end) (zlen pre) (zlen x) (map Some (s ++ [0]))).
      unfold on_part. rewrite SX, part_mid. cbn [rbind]. rewrite E. reflexivity.
    Qed.
    Lemma l_tmp : forall n a b d e t k, lab x flags = inr t -> cl n "label tmp" [(a, zlen pre); (b, zlen x); (d, flags); (e, k)] [(U8, map Some (s ++ [0]))] = cell (map Some t) k.
    Proof.
      intros n a b d e t k E. change (cl n "label tmp" [(a, zlen pre); (b, zlen x); (d, flags); (e, k)] [(U8, map Some (s ++ [0]))]) with (on_part (fun s => match lab s flags with inr t => cell (map Some t) k | inl _ => UB end) (zlen pre) (zlen x) (map Some (s ++ [0]))).
      unfold on_part. rewrite SX, part_mid. cbn [rbind]. rewrite E. reflexivity.
    Qed.
    Lemma at_end : cell (map Some (s ++ [0])) (zlen pre + zlen x) = Val c.
    Proof. rewrite <- zlen_app. apply (cell_at _ (pre ++ x) c post). rewrite SX, app_assoc. reflexivity. Qed.

    (** memcpy *)
    Definition n_copy : stmt := Eval cbn in match nth 6 (flat (match nth 2 (flat (f_body c_lookup_u8)) SSkip with SLoop _ _ b => b | b => b end)) SSkip with SSeq _ b => b | b => b end.
    Lemma copy_runs : forall t r q o e rc rest, lab x flags = inr t -> t = q ++ r -> zlen o + zlen t < 256 -> zlen r <= zlen rest ->
      exists k, R n_copy (ns (Some (zlen o)) (Some (zlen pre)) e (Some (zlen x)) (Some (zlen t)) rc (Some (zlen q)) (map Some (o ++ q) ++ rest))
        (Norm (ns (Some (zlen o)) (Some (zlen pre)) e (Some (zlen x)) (Some (zlen t)) rc k (map Some (o ++ t) ++ skipn (length r) rest))).
    Proof.
      intros t r. induction r as [|b r IH]; intros q o e rc rest LT E H LR; pose proof (f_equal zlen E) as Z1; rewrite zlen_app in Z1; pose proof (z0 _ q); pose proof (z0 _ o).
      - rewrite app_nil_r in E. subst q. cbn [length skipn]. exists (Some (zlen t)). eapply (runs_loop_end rt cl mono); [exists O; cc; reflexivity|]. cbn [snd]. rewrite Z.ltb_irrefl. reflexivity.
      - pose proof (z0 _ r). rewrite zlen_cons in Z1. destruct rest as [|y rest]; [rewrite zlen_cons in LR; change (zlen (@nil (option Z))) with 0 in LR; lia|]. rewrite !zlen_cons in LR.
        destruct (IH (q ++ [b]) o e rc rest LT ltac:(rewrite <- app_assoc; exact E) H ltac:(lia)) as (k & A). exists k. cbn [length skipn].
        assert (BB : 0 <= b <= 255). { pose proof x_ok as Q. rewrite LT in Q. destruct Q as (Q & _). rewrite E in Q. apply Forall_app in Q. destruct Q as (_ & Q). inversion Q; assumption. }
        eapply (runs_loop_next rt cl mono).
        + exists O. cc. reflexivity.
        + cbn [snd]. destruct (zlen q <? zlen t) eqn:Q; [discriminate|lia].
        + exists O. split; [|discriminate]. cc. rewrite (u64_id (zlen o + zlen q)) by (unfold two64; lia). rewrite (l_tmp _ _ _ _ _ t _ LT), (cell_at t q b r E). cbn. change (rt "label tmp") with U8. cc.
          rewrite <- (zlen_app _ o q), set_cell_out. cbn. reflexivity.
        + eapply (runs_exp rt cl). exists O. cc. rewrite (u64_id (zlen q + 1)) by (unfold two64; lia). reflexivity.
        + rewrite zlen_app in A. change (zlen [b]) with 1 in A. rewrite app_assoc, (map_app (@Some Z) (o ++ q) [b]), <- (app_assoc (map (@Some Z) (o ++ q))) in A. exact A.
    Qed.
    Definition n_body : stmt := Eval cbn in match nth 2 (flat (f_body c_lookup_u8)) SSkip with SLoop _ _ b => b | b => b end.
    Definition n_tail : stmt := Eval cbn in match n_body with SSeq _ (SSeq _ (SSeq _ (SSeq _ (SSeq _ s)))) => s | s => s end.
    Definition n_rest : stmt := Eval cbn in match n_tail with SSeq _ (SSeq _ s) => s | s => s end.
    Definition limit (t : list Z) : Z := 255 - (if (zlen t =? 0) && (c =? 0) then 1 else 2).
    (** After the copy. *)
    Lemma rest_runs : forall acc t rc k y z rest, zlen t <= 63 -> zlen (acc ++ t) <= limit t ->
      R n_rest (ns (Some (zlen acc)) (Some (zlen pre)) (Some (zlen pre + zlen x)) (Some (zlen x)) (Some (zlen t)) rc k (map Some (acc ++ t) ++ y :: z :: rest))
        (if c =? 0 then Brk (ns (Some (zlen (acc ++ t))) (Some (zlen pre + zlen x + 1)) (Some (zlen pre + zlen x)) (Some (zlen x)) (Some (zlen t)) rc k (map Some (acc ++ t) ++ Some 0 :: z :: rest))
         else Norm (ns (Some (zlen (acc ++ t ++ [46]))) (Some (zlen pre + zlen x + 1)) (Some (zlen pre + zlen x)) (Some (zlen x)) (Some (zlen t)) rc k (map Some (acc ++ t ++ [46]) ++ Some 0 :: rest))).
    Proof.
      intros acc t rc k y z rest T63 LIM. destruct lens as (P1 & P2 & P3). pose proof (z0 _ acc) as A0. pose proof (z0 _ t) as T0. assert (LIM2 : zlen (acc ++ t) <= 254) by (unfold limit in LIM; destruct ((zlen t =? 0) && (c =? 0)); lia).
      assert (TZ : c <> 0 -> zlen (acc ++ t) <= 253). { intros Q. unfold limit in LIM. replace (c =? 0) with false in LIM by lia. rewrite andb_false_r in LIM. lia. }
      unfold n_rest. eapply (runs_seq rt cl mono). { eapply (runs_exp rt cl). exists O. cc. rewrite zlen_app in LIM2. rewrite (u64_id (zlen acc + zlen t)) by (unfold two64; lia). rewrite <- zlen_app. reflexivity. }
      set (N := zlen (acc ++ t)) in *.
      assert (CD : forall nl kk b, evals rt cl (EBin Eq (EIdx "src" (EVar "end")) (int 46)) (ns nl (Some (zlen pre)) (Some (zlen pre + zlen x)) (Some (zlen x)) (Some (zlen t)) rc kk b) (I32, if c =? 46 then 1 else 0) (ns nl (Some (zlen pre)) (Some (zlen pre + zlen x)) (Some (zlen x)) (Some (zlen t)) rc kk b)).
      { intros. exists O. cc. rewrite at_end. cc. destruct (c =? 46); reflexivity. }
      assert (LAST : forall nl b, R (SIf (ENot (EIdx "src" (EPost "p"))) SBreak SSkip) (ns nl (Some (zlen pre + zlen x)) (Some (zlen pre + zlen x)) (Some (zlen x)) (Some (zlen t)) rc k b)
        ((if c =? 0 then Brk else Norm) (ns nl (Some (zlen pre + zlen x + 1)) (Some (zlen pre + zlen x)) (Some (zlen x)) (Some (zlen t)) rc k b))).
      { intros nl b. eapply (runs_if rt cl mono); [exists O; cc; rewrite at_end; cc; rewrite (u64_id (zlen pre + zlen x + 1)) by (unfold two64; lia); reflexivity|]. cbn [snd]. destruct (c =? 0); cbn [Z.eqb]; [apply runs_brk|apply runs_skip]. }
      assert (MV : forall nl b, R (SExp (EAsg "p" (EVar "end"))) (ns nl (Some (zlen pre)) (Some (zlen pre + zlen x)) (Some (zlen x)) (Some (zlen t)) rc k b) (Norm (ns nl (Some (zlen pre + zlen x)) (Some (zlen pre + zlen x)) (Some (zlen x)) (Some (zlen t)) rc k b))).
      { intros. eapply (runs_exp rt cl). exists O. cc. reflexivity. }
      destruct CX as [C|C]; rewrite C in *; cbn [Z.eqb Pos.eqb] in *.
      - specialize (TZ ltac:(discriminate)). eapply (runs_seq rt cl mono).
        { eapply (runs_if rt cl mono); [apply CD|]. cbn [snd Z.eqb].
          eapply (runs_seq rt cl mono). { eapply (runs_if rt cl mono); [exists O; cc; rewrite (u64_id (N + 1)) by (unfold two64, N; pose proof (z0 _ (acc ++ t)); lia); reflexivity|]. cbn [snd]. replace (255 <? N + 1) with false by lia. apply runs_skip. }
          eapply (runs_seq rt cl mono). { exists O. split; [|discriminate]. cc. unfold N. rewrite set_cell_out. cbn. reflexivity. }
          eapply (runs_exp rt cl). exists O. cc. rewrite (u64_id (zlen (acc ++ t) + 1)) by (unfold two64, N in *; pose proof (z0 _ (acc ++ t)); lia). reflexivity. }
        change (46 mod 256) with 46. change (zlen (acc ++ t) + 1) with (N + 1).
        assert (N1 : N + 1 = zlen (acc ++ t ++ [46])) by (rewrite app_assoc, zlen_app; reflexivity). rewrite N1.
        assert (MM : map Some (acc ++ t) ++ Some 46 :: z :: rest = map Some (acc ++ t ++ [46]) ++ z :: rest) by (rewrite (app_assoc acc), (map_app (@Some Z) (acc ++ t)), <- app_assoc; reflexivity). rewrite MM.
        eapply (runs_seq rt cl mono). { exists O. split; [|discriminate]. cc. rewrite set_cell_out. cbn. reflexivity. }
        eapply (runs_seq rt cl mono); [apply MV|]. apply LAST.
      - eapply (runs_seq rt cl mono). { eapply (runs_if rt cl mono); [apply CD|]. cbn [snd Z.eqb]. apply runs_skip. }
        eapply (runs_seq rt cl mono). { exists O. split; [|discriminate]. cc. unfold N. rewrite set_cell_out. cbn. reflexivity. }
        eapply (runs_seq rt cl mono); [apply MV|]. apply LAST.
    Qed.
    Lemma name_step : forall acc e ll tl rc k rest, zlen acc <= 254 -> zlen acc + zlen rest = 256 ->
      match lab x flags with
      | inl f => exists st, R n_body (ns (Some (zlen acc)) (Some (zlen pre)) e ll tl rc k (map Some acc ++ rest)) (Ret (I32, f) st) /\ arrs st = nmem (map Some acc ++ rest)
      | inr t =>
          if limit t <? zlen (acc ++ t) then exists st, R n_body (ns (Some (zlen acc)) (Some (zlen pre)) e ll tl rc k (map Some acc ++ rest)) (Ret (I32, IDN2_TOO_BIG_DOMAIN) st) /\ arrs st = nmem (map Some acc ++ rest)
          else if c =? 0 then exists p' e' l' t' r' k' rest', R n_body (ns (Some (zlen acc)) (Some (zlen pre)) e ll tl rc k (map Some acc ++ rest)) (Brk (ns (Some (zlen (acc ++ t))) p' e' l' t' r' k' (map Some (acc ++ t) ++ Some 0 :: rest'))) /\ zlen (acc ++ t) + 1 + zlen rest' = 256
          else exists e' l' t' r' k' rest', R n_body (ns (Some (zlen acc)) (Some (zlen pre)) e ll tl rc k (map Some acc ++ rest)) (Norm (ns (Some (zlen (acc ++ t ++ [46]))) (Some (zlen (pre ++ x ++ [c]))) e' l' t' r' k' (map Some (acc ++ t ++ [46]) ++ rest'))) /\
            zlen (acc ++ t ++ [46]) + zlen rest' = 256
      end.
    Proof.
      intros acc e ll tl rc k rest A254 A256. destruct lens as (P1 & P2 & P3). pose proof (z0 _ acc) as A0. set (st0 := ns (Some (zlen acc)) (Some (zlen pre)) e ll tl rc k (map Some acc ++ rest)).
      set (code := match lab x flags with inl f => f | inr _ => 0 end).
      assert (PR : forall s u, R s (ns (Some (zlen acc)) (Some (zlen pre)) (Some (zlen pre + zlen x)) (Some (zlen x)) tl (Some code) k (map Some acc ++ rest)) u ->
        R (SSeq (SExp (EAsg "end" (ECall "strchrnul '.'" ["src"] [EVar "p"]))) (SSeq (SExp (EAsg "labellen" (diff (EVar "end") (EVar "p")))) (SSeq (SExp (EAsg "rc" (ECall "label" ["src"] [EVar "p"; EVar "labellen"; EVar "flags"]))) s))) st0 u).
      { intros s' u Q. eapply (runs_seq rt cl mono). { eapply (runs_exp rt cl). exists O. cc. rewrite l_strchrnul. cbn. change (rt "strchrnul '.'") with U64. cc. reflexivity. }
        eapply (runs_seq rt cl mono). { eapply (runs_exp rt cl). exists O. unfold diff. cbn -[conv]. unfold cast. cbn -[conv]. replace (zlen pre + zlen x - zlen pre) with (zlen x) by lia. change (conv U64 (zlen x)) with (u64 (zlen x)). rewrite (u64_id (zlen x)) by (unfold two64; lia). rewrite conv_i64 by lia. change (conv U64 (zlen x)) with (u64 (zlen x)). rewrite (u64_id (zlen x)) by (unfold two64; lia). reflexivity. }
        eapply (runs_seq rt cl mono). { eapply (runs_exp rt cl). exists O. cc. rewrite l_rc. cbn. change (rt "label") with I32. cc. reflexivity. }
        exact Q. }
      change n_body with (SSeq (SExp (EAsg "end" (ECall "strchrnul '.'" ["src"] [EVar "p"]))) (SSeq (SExp (EAsg "labellen" (diff (EVar "end") (EVar "p")))) (SSeq (SExp (EAsg "rc" (ECall "label" ["src"] [EVar "p"; EVar "labellen"; EVar "flags"])))
        (SSeq (SIf (EBin Ne (EVar "rc") (int IDN2_OK)) (SReturn (EVar "rc")) SSkip) (SSeq (SExp (EAsg "tmplen" (ECall "label tmplen" ["src"] [EVar "p"; EVar "labellen"; EVar "flags"]))) n_tail))))).
      pose proof x_ok as LA. destruct (lab x flags) as [f|t] eqn:LT.
      - destruct LA as (F0 & _). eexists. split. { apply PR. eapply (runs_seq_stop rt cl); [|exact I]. eapply (runs_if rt cl mono); [exists O; cc; reflexivity|]. cbn [snd]. unfold code. change IDN2_OK with 0. replace (f =? 0) with false by lia.
        eapply (runs_ret rt cl). exists O. cc. reflexivity. } reflexivity.
      - destruct LA as (_ & T63). pose proof (z0 _ t) as T0.
        assert (PR2 : forall u, R n_tail (ns (Some (zlen acc)) (Some (zlen pre)) (Some (zlen pre + zlen x)) (Some (zlen x)) (Some (zlen t)) (Some 0) k (map Some acc ++ rest)) u ->
          R (SSeq (SIf (EBin Ne (EVar "rc") (int IDN2_OK)) (SReturn (EVar "rc")) SSkip) (SSeq (SExp (EAsg "tmplen" (ECall "label tmplen" ["src"] [EVar "p"; EVar "labellen"; EVar "flags"]))) n_tail))
            (ns (Some (zlen acc)) (Some (zlen pre)) (Some (zlen pre + zlen x)) (Some (zlen x)) tl (Some code) k (map Some acc ++ rest)) u).
        { intros u Q. eapply (runs_seq rt cl mono). { eapply (runs_if rt cl mono); [exists O; cc; reflexivity|]. apply runs_skip. }
          eapply (runs_seq rt cl mono). { eapply (runs_exp rt cl). exists O. cc. rewrite (l_len _ _ _ _ t LT). cbn. change (rt "label tmplen") with U64. cc. reflexivity. } exact Q. }
        assert (CK : evals rt cl (EBin Gt (EBin Add (EVar "lookupnamelen") (EVar "tmplen")) (EBin Sub (int 255) (ECond (EAnd (EBin Eq (EVar "tmplen") (int 0)) (EBin Eq (EIdx "src" (EVar "end")) (int 0))) (int 1) (int 2))))
            (ns (Some (zlen acc)) (Some (zlen pre)) (Some (zlen pre + zlen x)) (Some (zlen x)) (Some (zlen t)) (Some 0) k (map Some acc ++ rest)) (I32, if limit t <? zlen (acc ++ t) then 1 else 0)
            (ns (Some (zlen acc)) (Some (zlen pre)) (Some (zlen pre + zlen x)) (Some (zlen x)) (Some (zlen t)) (Some 0) k (map Some acc ++ rest))).
        { exists O. cc. rewrite zlen_app. rewrite (u64_id (zlen acc + zlen t)) by (unfold two64; lia). unfold limit. destruct (zlen t =? 0); cc; [rewrite at_end; cc; destruct (c =? 0); cc; reflexivity|reflexivity]. }
        destruct (limit t <? zlen (acc ++ t)) eqn:Q.
        + eexists. split. { apply PR, PR2. unfold n_tail. eapply (runs_seq_stop rt cl); [|exact I]. eapply (runs_if rt cl mono); [exact CK|]. eapply (runs_ret rt cl). exists O. reflexivity. } reflexivity.
        + assert (L2 : zlen (acc ++ t) <= 254) by (unfold limit in Q; destruct ((zlen t =? 0) && (c =? 0)); lia). rewrite zlen_app in L2.
          destruct (copy_runs t t [] acc (Some (zlen pre + zlen x)) (Some 0) rest LT eq_refl ltac:(lia) ltac:(lia)) as (k' & CP). rewrite app_nil_r in CP. change (zlen (@nil Z)) with 0 in CP.
          assert (RL : zlen (skipn (length t) rest) = 256 - zlen (acc ++ t)) by (rewrite zlen_app; unfold zlen in *; rewrite skipn_length; lia).
          destruct (skipn (length t) rest) as [|y [|z rest']]; [change (zlen (@nil (option Z))) with 0 in RL; rewrite zlen_app in RL; lia|change (zlen [y]) with 1 in RL; rewrite zlen_app in RL; lia|]. rewrite !zlen_cons in RL.
          pose proof (rest_runs acc t (Some 0) k' y z rest' T63 ltac:(lia)) as RR.
          assert (ALL : forall o, R n_rest (ns (Some (zlen acc)) (Some (zlen pre)) (Some (zlen pre + zlen x)) (Some (zlen x)) (Some (zlen t)) (Some 0) k' (map Some (acc ++ t) ++ y :: z :: rest')) o ->
            R n_tail (ns (Some (zlen acc)) (Some (zlen pre)) (Some (zlen pre + zlen x)) (Some (zlen x)) (Some (zlen t)) (Some 0) k (map Some acc ++ rest)) o).
          { intros o X. change n_tail with (SSeq (SIf (EBin Gt (EBin Add (EVar "lookupnamelen") (EVar "tmplen")) (EBin Sub (int 255) (ECond (EAnd (EBin Eq (EVar "tmplen") (int 0)) (EBin Eq (EIdx "src" (EVar "end")) (int 0))) (int 1) (int 2)))) (SReturn (int IDN2_TOO_BIG_DOMAIN)) SSkip)
              (SSeq (SSeq (SExp (EAsg "k" (int 0))) n_copy) n_rest)).
            eapply (runs_seq rt cl mono). { eapply (runs_if rt cl mono); [exact CK|]. apply runs_skip. }
            eapply (runs_init rt cl mono). { eapply (runs_exp rt cl). exists O. cc. reflexivity. } eapply (runs_seq rt cl mono); [exact CP|exact X]. }
          destruct (c =? 0) eqn:C0.
          * do 7 eexists. split; [apply PR, PR2, ALL; exact RR|]. rewrite zlen_cons. lia.
          * do 6 eexists. split; [apply PR, PR2, ALL; rewrite !zlen_app; change (zlen [c]) with 1; rewrite !zlen_app in RR; rewrite <- Z.add_assoc in RR; exact RR|]. rewrite zlen_cons. rewrite app_assoc, zlen_app. change (zlen [46]) with 1. lia.
    Qed.
  End Label.
  (** The name so far, and the labels to come. *)
  Fixpoint assemble (acc : list Z) (ls : list (list Z)) : Z + list Z :=
    match ls with
    | [] => inr acc
    | l :: r => match lab l flags with
                | inl rc => inl rc
                | inr t => if 255 - (if (zlen t =? 0) && match r with [] => true | _ => false end then 1 else 2) <? zlen (acc ++ t) then inl IDN2_TOO_BIG_DOMAIN
                           else match r with [] => inr (acc ++ t) | _ => assemble (acc ++ t ++ [46]) r end
                end
    end.
  Lemma name_runs : forall ls pre acc e ll tl rc k rest, ls <> [] -> Forall (fun l => ~ In 46 l) ls -> s = pre ++ join ls -> zlen acc <= 254 -> zlen acc + zlen rest = 256 ->
    match assemble acc ls with
    | inl f => exists st buf, R (SLoop (int 1) SSkip n_body) (ns (Some (zlen acc)) (Some (zlen pre)) e ll tl rc k (map Some acc ++ rest)) (Ret (I32, f) st) /\ arrs st = nmem buf /\ zlen buf = 256
    | inr n => exists p' e' l' t' r' k' rest', R (SLoop (int 1) SSkip n_body) (ns (Some (zlen acc)) (Some (zlen pre)) e ll tl rc k (map Some acc ++ rest)) (Norm (ns (Some (zlen n)) p' e' l' t' r' k' (map Some n ++ Some 0 :: rest'))) /\
        zlen n + 1 + zlen rest' = 256
    end.
  Proof.
    induction ls as [|l ls IH]; intros pre acc e ll tl rc k rest NE ND SP A1 A2; [contradiction|]. inversion ND as [|? ? D1 D2]; subst.
    assert (N0 : ~ In 0 l). { intros Q. assert (In 0 s) as I0. { rewrite SP. apply in_app_iff. right. destruct ls; cbn [join]; [exact Q|]. apply in_app_iff. left. exact Q. } pose proof (proj1 (Forall_forall _ _) BS 0 I0). cbn beta in *. lia. }
    set (c := match ls with [] => 0 | _ => 46 end). set (post := match ls with [] => [] | _ => join ls ++ [0] end).
    assert (SX : s ++ [0] = pre ++ l ++ c :: post). { rewrite SP, <- app_assoc. f_equal. unfold c, post. destruct ls; cbn [join]; [reflexivity|]. rewrite <- !app_assoc. reflexivity. }
    assert (CX : c = 46 \/ c = 0) by (unfold c; destruct ls; tauto).
    pose proof (name_step pre l c post SX D1 N0 CX acc e ll tl rc k rest A1 A2) as ST. cbn [assemble].
    assert (LE : match ls with [] => true | _ => false end = (c =? 0)) by (unfold c; destruct ls; reflexivity).
    assert (TR : forall st, evals rt cl (int 1) st (I32, 1) st) by (intros; exists O; reflexivity).
    destruct (lab l flags) as [f|t] eqn:LT.
    - destruct ST as (st & X & Y). exists st, (map Some acc ++ rest). split; [|split; [exact Y|rewrite zlen_app, zlen_map; lia]]. exact (lk_return U lab _ _ _ _ X).
    - rewrite LE. unfold limit in ST. destruct (_ <? zlen (acc ++ t)) eqn:Q.
      + destruct ST as (st & X & Y). exists st, (map Some acc ++ rest). split; [|split; [exact Y|rewrite zlen_app, zlen_map; lia]]. exact (lk_return U lab _ _ _ _ X).
      + destruct ls as [|l2 ls].
        * cbn [Z.eqb c] in ST. destruct ST as (p' & e' & l' & t' & r' & k' & rest' & X & Y). do 7 eexists. split; [|exact Y]. exact (lk_break U lab _ _ _ X).
        * assert (C0 : c =? 0 = false) by reflexivity. rewrite C0 in ST, Q. rewrite andb_false_r in Q. destruct ST as (e' & l' & t' & r' & k' & rest' & X & Y).
          assert (Z1 : zlen (acc ++ t ++ [46]) <= 254) by (rewrite app_assoc, zlen_app; change (zlen [46]) with 1; lia).
          assert (SP2 : s = (pre ++ l ++ [c]) ++ join (l2 :: ls)) by (rewrite SP, <- !app_assoc; reflexivity).
          specialize (IH (pre ++ l ++ [c]) (acc ++ t ++ [46]) e' l' t' r' k' rest' ltac:(discriminate) D2 SP2 Z1 Y).
          destruct (assemble (acc ++ t ++ [46]) (l2 :: ls)) as [f|n].
          { destruct IH as (st & buf & G & H). exists st, buf. split; [|exact H]. eapply (runs_loop_next rt cl mono); [apply TR|discriminate|exact X|apply runs_skip|exact G]. }
          destruct IH as (p2 & e2 & l3 & t2 & r2 & k2 & rest2 & G & H). do 7 eexists. split; [|exact H]. eapply (runs_loop_next rt cl mono); [apply TR|discriminate|exact X|apply runs_skip|exact G].
  Qed.
  (** The whole of it. *)
  Lemma name_body : forall ls, dotted ls s ->
    match assemble [] ls with
    | inl f => exists st buf, R (f_body c_lookup_u8) (ns None None None None None None None (repeat None 256)) (Ret (I32, f) st) /\ zlen buf = 256 /\
        arrs st = [("src", (U8, map Some (s ++ [0]))); ("_lookupname", (U8, buf)); ("malloc", (U64, [None]))]
    | inr n => exists st rest, R (f_body c_lookup_u8) (ns None None None None None None None (repeat None 256)) (Ret (I32, 0) st) /\ zlen n + 1 + zlen rest = 256 /\
        arrs st = [("src", (U8, map Some (s ++ [0]))); ("_lookupname", (U8, map Some (n ++ [0]) ++ rest)); ("malloc", (U64, [Some (zlen n + 1)]))]
    end.
  Proof.
    intros ls (NE & ND & SJ). pose proof (name_runs ls [] [] None None None None None (repeat None 256) NE ND SJ ltac:(discriminate) eq_refl) as A. change (zlen (@nil Z)) with 0 in A. cbn [map app] in A.
    assert (PR : forall o, R (SSeq (SLoop (int 1) SSkip n_body) (SSeq (SStore "malloc" (int 0) (EBin Add (EVar "lookupnamelen") (int 1))) (SReturn (int 0)))) (ns (Some 0) (Some 0) None None None None None (repeat None 256)) o ->
      R (f_body c_lookup_u8) (ns None None None None None None None (repeat None 256)) o).
    { intros o Q. change (f_body c_lookup_u8) with (SSeq (SExp (EAsg "lookupnamelen" (int 0))) (SSeq (SExp (EAsg "p" (int 0))) (SSeq (SLoop (int 1) SSkip n_body) (SSeq (SStore "malloc" (int 0) (EBin Add (EVar "lookupnamelen") (int 1))) (SReturn (int 0)))))).
      eapply (runs_seq rt cl mono). { eapply (runs_exp rt cl). exists O. cc. reflexivity. } eapply (runs_seq rt cl mono). { eapply (runs_exp rt cl). exists O. cc. reflexivity. } exact Q. }
    destruct (assemble [] ls) as [f|n].
    - destruct A as (st & buf & X & Y & W). exists st, buf. split; [|split; [exact W|exact Y]]. apply PR. eapply (runs_seq_stop rt cl); [exact X|exact I].
    - destruct A as (p' & e' & l' & t' & r' & k' & rest' & X & Y). pose proof (z0 _ n). pose proof (z0 _ rest'). eexists. exists rest'. split; [|split; [exact Y|]].
      + apply PR. eapply (runs_seq rt cl mono); [exact X|]. eapply (runs_seq rt cl mono). { exists O. split; [|discriminate]. cc. rewrite (u64_id (zlen n + 1)) by (unfold two64; lia). reflexivity. }
        eapply (runs_ret rt cl). exists O. reflexivity.
      + cbn [arrs]. rewrite (map_app (@Some Z) n [0]), <- (app_assoc (map (@Some Z) n)). reflexivity.
  Qed.
  (** What that comes to. *)
  Definition outputs (ls ts : list (list Z)) : Prop := Forall2 (fun l t => lab l flags = inr t) ls ts.
  Definition glue (acc : list Z) (ts : list (list Z)) : list Z := acc ++ join ts.
  Lemma glue_cons : forall acc t u ts, (acc ++ t ++ [46]) ++ join (u :: ts) = acc ++ join (t :: u :: ts).
  Proof. intros. cbn [join]. rewrite <- !app_assoc. reflexivity. Qed.
  Lemma asm_ok : forall ls ts acc, outputs ls ts -> ls <> [] -> zlen (acc ++ join ts) <= 253 \/ zlen (acc ++ join ts) = 254 /\ last ts [0] = [] -> assemble acc ls = inr (acc ++ join ts).
  Proof.
    induction ls as [|l ls IH]; intros ts acc O NE F; [contradiction|]. inversion O as [|? t ? us LT O2]; subst. cbn [assemble]. rewrite LT.
    destruct ls as [|l2 ls]; [inversion O2; subst; cbn [join last] in *|].
    - destruct F as [F|(F & E)]; [destruct (zlen t =? 0); cbn [andb]; destruct (_ <? zlen (acc ++ t)) eqn:Q; try reflexivity; lia|]. subst t. change (zlen (@nil Z)) with 0. cbn [Z.eqb andb]. destruct (_ <? zlen (acc ++ [])) eqn:Q; [lia|reflexivity].
    - inversion O2 as [|? u ? us2 LU O3]; subst. rewrite <- glue_cons in F |- *. rewrite andb_false_r.
      assert (zlen (acc ++ t) + 1 <= zlen ((acc ++ t ++ [46]) ++ join (u :: us2))) by (rewrite !zlen_app; change (zlen [46]) with 1; pose proof (z0 _ (join (u :: us2))); lia).
      destruct (_ <? zlen (acc ++ t)) eqn:Q; [destruct F as [F|(F & _)]; lia|]. apply IH; [constructor; assumption|discriminate|]. destruct F as [F|(F & E)]; [left; exact F|right; split; [exact F|exact E]].
  Qed.
  (** The labels up to one at which it stops. *)
  Lemma asm_upto : forall l1 ts acc x l2, outputs l1 ts -> zlen (acc ++ join ts) <= 253 -> x :: l2 <> [] ->
    assemble acc (l1 ++ x :: l2) = assemble (match ts with [] => acc | _ => acc ++ join ts ++ [46] end) (x :: l2).
  Proof.
    induction l1 as [|l l1 IH]; intros ts acc x l2 O F NE; inversion O as [|? t ? us LT O2]; subst; [reflexivity|].
    change ((l :: l1) ++ x :: l2) with (l :: (l1 ++ x :: l2)). cbn [assemble]. rewrite LT. assert (E : match l1 ++ x :: l2 with [] => true | _ => false end = false) by (destruct l1; reflexivity). rewrite E, andb_false_r.
    assert (zlen (acc ++ t) <= zlen (acc ++ join (t :: us))). { destruct us; cbn [join]; [lia|]. rewrite !zlen_app. match goal with |- context [zlen (?a :: ?b)] => pose proof (z0 _ (a :: b)) end. lia. }
    destruct (_ <? zlen (acc ++ t)) eqn:Q; [lia|]. assert (N : forall A (a : A) b, match l1 ++ x :: l2 with [] => a | _ :: _ => b end = b) by (intros; destruct l1; reflexivity). rewrite N.
    destruct us as [|u us].
    - inversion O2; subst. cbn [join app]. reflexivity.
    - rewrite (IH (u :: us) (acc ++ t ++ [46]) x l2 O2); [|rewrite glue_cons; exact F|discriminate]. cbn [join]. rewrite <- !app_assoc. reflexivity.
  Qed.
  Lemma asm_error : forall l1 ts x l2 rc, outputs l1 ts -> zlen (join ts) <= 253 -> lab x flags = inl rc -> assemble [] (l1 ++ x :: l2) = inl rc.
  Proof. intros l1 ts x l2 rc O F L. rewrite (asm_upto l1 ts [] x l2 O F ltac:(discriminate)). cbn [assemble]. rewrite L. reflexivity. Qed.
  Lemma join_snoc : forall ts t, join (ts ++ [t]) = match ts with [] => [] | _ => join ts ++ [46] end ++ t.
  Proof. induction ts as [|a ts IH]; intros t; [reflexivity|]. change ((a :: ts) ++ [t]) with (a :: (ts ++ [t])). destruct ts as [|b ts]; [cbn; rewrite <- app_assoc; reflexivity|]. cbn [app join] in *. rewrite (IH t). rewrite <- !app_assoc. reflexivity. Qed.
  Lemma asm_long : forall l1 ts x t l2, outputs l1 ts -> zlen (join ts) <= 253 -> lab x flags = inr t ->
    254 < zlen (join (ts ++ [t])) \/ zlen (join (ts ++ [t])) = 254 /\ ~ (t = [] /\ l2 = []) -> assemble [] (l1 ++ x :: l2) = inl IDN2_TOO_BIG_DOMAIN.
  Proof.
    intros l1 ts x t l2 O F L G. rewrite (asm_upto l1 ts [] x l2 O F ltac:(discriminate)). cbn [assemble]. rewrite L. rewrite join_snoc in G. cbn [app].
    set (a := match ts with [] => [] | _ => join ts ++ [46] end) in *.
    destruct (zlen t =? 0) eqn:T0; cbn [andb]; [destruct l2 as [|l3 l2]|]; destruct (_ <? zlen (a ++ t)) eqn:Q; try reflexivity; exfalso; destruct G as [G|(G & H)]; try lia.
    apply H. split; [|reflexivity]. destruct t; [reflexivity|]. rewrite zlen_cons in T0. pose proof (z0 _ t). lia.
  Qed.
  (** One of these is the case. *)
  Lemma asm_cases : forall ls, ls <> [] ->
    (exists ts, outputs ls ts /\ (zlen (join ts) <= 253 \/ zlen (join ts) = 254 /\ last ts [0] = [])) \/
    (exists l1 ts x l2, ls = l1 ++ x :: l2 /\ outputs l1 ts /\ zlen (join ts) <= 253 /\ exists rc, lab x flags = inl rc) \/
    (exists l1 ts x l2 t, ls = l1 ++ x :: l2 /\ outputs l1 ts /\ zlen (join ts) <= 253 /\ lab x flags = inr t /\ (254 < zlen (join (ts ++ [t])) \/ zlen (join (ts ++ [t])) = 254 /\ ~ (t = [] /\ l2 = []))).
  Proof.
    assert (G : forall l2 l1 ts, outputs l1 ts -> zlen (join ts) <= 253 ->
      (exists us, outputs (l1 ++ l2) us /\ (zlen (join us) <= 253 \/ zlen (join us) = 254 /\ last us [0] = [])) \/
      (exists a ts x b, l1 ++ l2 = a ++ x :: b /\ outputs a ts /\ zlen (join ts) <= 253 /\ exists rc, lab x flags = inl rc) \/
      (exists a ts x b t, l1 ++ l2 = a ++ x :: b /\ outputs a ts /\ zlen (join ts) <= 253 /\ lab x flags = inr t /\ (254 < zlen (join (ts ++ [t])) \/ zlen (join (ts ++ [t])) = 254 /\ ~ (t = [] /\ b = [])))).
    { induction l2 as [|x l2 IH]; intros l1 ts O F; [left; exists ts; rewrite app_nil_r; tauto|]. destruct (lab x flags) as [rc|t] eqn:L.
      - right; left. exists l1, ts, x, l2. eauto.
      - assert (O2 : outputs (l1 ++ [x]) (ts ++ [t])) by (apply Forall2_app; [exact O|constructor; [exact L|constructor]]).
        destruct (Z_le_gt_dec (zlen (join (ts ++ [t]))) 253) as [Q|Q].
        + specialize (IH (l1 ++ [x]) (ts ++ [t]) O2 Q). rewrite <- app_assoc in IH. exact IH.
        + destruct (Z.eq_dec (zlen (join (ts ++ [t]))) 254) as [E|E]; [|right; right; exists l1, ts, x, l2, t; repeat split; auto; left; lia].
          destruct t as [|b t]; [destruct l2 as [|y l2]|].
          * left. exists (ts ++ [[]]). split; [exact O2|]. right. split; [exact E|apply last_last].
          * right; right. exists l1, ts, x, (y :: l2), []. repeat split; auto. right. split; [exact E|]. intros (_ & H). discriminate H.
          * right; right. exists l1, ts, x, l2, (b :: t). repeat split; auto. right. split; [exact E|]. intros (H & _). discriminate H. }
    intros ls NE. exact (G ls [] [] (Forall2_nil _) ltac:(discriminate)).
  Qed.
End Name.
