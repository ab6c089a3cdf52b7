(** The text of set_default_flags, c_strncasecmp and of the mapping in _tr46. *)
From Coq Require Import String.
From Verif Require Import Base PunyBase Uenv DataTypes SpecTables Tables Gentr46 Tr46Map Tr46Facts Idna Lookup SpecLookup MapProofs CLang CLogic CLeaf CDecode CEncode CLabel CBidi CMapData CLookup SpecCPuny SpecCLookup.
Local Open Scope string_scope.
Local Open Scope list_scope.
Local Open Scope Z_scope.
Arguments calls : simpl never.
Arguments types : simpl never.
Arguments lookup_program : simpl never.
Arguments Z.land : simpl never.
Arguments Z.lor : simpl never.

Section Rules.
  Variable U : uenv.
  Variable lab : list Z -> Z -> Z + list Z.
  Notation P := (lookup_program U lab).
  Notation rt := (types P). Notation cl := (calls P 1).
  Lemma lk_mono : forall n m f vs a, (n <= m)%nat -> cl n f vs a <> Fuel -> cl m f vs a = cl n f vs a. Proof. intros; now apply calls_mono. Qed.
  Notation R := (runs rt cl).
  Lemma lk_and : forall a b st ta x tb y, evals rt cl a st (ta, x) st -> (x <> 0 -> evals rt cl b st (tb, y) st) ->
    evals rt cl (EAnd a b) st (I32, if negb (x =? 0) && negb (y =? 0) then 1 else 0) st.
  Proof.
    intros a b st ta x tb y (n & A) B. destruct (x =? 0) eqn:X.
    - exists n. cbn [eval]. rewrite A. cbn [rbind snd]. rewrite X. reflexivity.
    - destruct (B ltac:(lia)) as (m & C). exists (max n m). cbn [eval]. rewrite (evals_at _ _ lk_mono _ _ _ _ _ A) by lia. cbn [rbind snd]. rewrite X.
      rewrite (evals_at _ _ lk_mono _ _ _ _ _ C) by lia. cbn [rbind snd negb andb]. destruct (y =? 0); reflexivity.
  Qed.
  Lemma lk_when : forall c s st v b, evals rt cl c st (I32, if b : bool then 1 else 0) st -> (b = true -> R s st v) -> (b = false -> R SSkip st v) -> R (SIf c s SSkip) st v.
  Proof. intros c s st v b E T F. eapply (runs_if rt cl lk_mono); [exact E|]. destruct b; cbn; auto. Qed.

  Lemma lk_break : forall b st st', R b st (Brk st') -> R (SLoop (int 1) SSkip b) st (Norm st').
  Proof. intros b st st' B. exact (runs_loop_stop rt cl lk_mono (int 1) SSkip b st (I32, 1) st (Brk st') (ex_intro _ O eq_refl) ltac:(discriminate) B I). Qed.
  Lemma lk_return : forall b st v st', R b st (Ret v st') -> R (SLoop (int 1) SSkip b) st (Ret v st').
  Proof. intros b st v st' B. exact (runs_loop_stop rt cl lk_mono (int 1) SSkip b st (I32, 1) st (Ret v st') (ex_intro _ O eq_refl) ltac:(discriminate) B I). Qed.
  Lemma lk_next : forall b st st' o, R b st (Norm st') -> R (SLoop (int 1) SSkip b) st' o -> R (SLoop (int 1) SSkip b) st o.
  Proof. intros b st st' o B Q. exact (runs_loop_next rt cl lk_mono (int 1) SSkip b st (I32, 1) st st' st' o (ex_intro _ O eq_refl) ltac:(discriminate) B (runs_skip rt cl st') Q). Qed.

  Definition fs (f : Z) : cst := mkst [] [("flags", (I32, [Some f]))].
  Lemma flag_ev : forall f k, 0 <= f -> 0 <= k -> evals rt cl (EBin BAnd (EIdx "flags" (int 0)) (int k)) (fs f) (I32, Z.land f k) (fs f).
  Proof. intros f k F K. exists O. cbn. change (cell [Some f] 0) with (Val f). cbn. unfold cast. cbn. replace ((f <? 0) || (k <? 0)) with false by lia. reflexivity. Qed.
  Lemma flag_ev2 : forall f j k, 0 <= f -> 0 <= k -> 0 <= j -> evals rt cl (EBin BAnd (EIdx "flags" (int 0)) (EBin BOr (int j) (int k))) (fs f) (I32, Z.land f (Z.lor j k)) (fs f).
  Proof.
    intros f j k F K J. exists O. cbn. change (cell [Some f] 0) with (Val f). cbn. unfold cast. cbn. replace ((j <? 0) || (k <? 0)) with false by lia. cbn.
    assert (0 <= Z.lor j k) by (apply Z.lor_nonneg; lia). replace ((f <? 0) || (Z.lor j k <? 0)) with false by lia. reflexivity.
  Qed.
  Definition code_of {A} (o : out A) : Z := match o with Ok _ => 0 | Fail rc => rc | _ => 0 end.
  Lemma default_runs : forall f, 0 <= f -> 
    R (f_body c_set_default_flags) (fs f) (Ret (I32, code_of (set_default_flags f)) (fs (match set_default_flags f with Ok g => g | _ => f end))).
  Proof.
    intros f H. cbn [f_body c_set_default_flags]. unfold set_default_flags, has.
    assert (RR : forall k g, R (SReturn (int k)) (fs g) (Ret (I32, k) (fs g))) by (intros; eapply (runs_ret rt cl); exists O; reflexivity).
    destruct (negb (Z.land f IDN2_TRANSITIONAL =? 0) && negb (Z.land f IDN2_NONTRANSITIONAL =? 0)) eqn:C1.
    { apply (runs_seq_stop rt cl); [|exact I]. eapply lk_when; [eapply lk_and; [apply flag_ev; [lia|discriminate]|intros _; apply flag_ev; [lia|discriminate]]|intros _; apply RR|rewrite C1; discriminate]. }
    eapply (runs_seq rt cl lk_mono). { eapply lk_when; [eapply lk_and; [apply flag_ev; [lia|discriminate]|intros _; apply flag_ev; [lia|discriminate]]|rewrite C1; discriminate|intros _; apply runs_skip]. }
    destruct (negb (Z.land f (Z.lor IDN2_TRANSITIONAL IDN2_NONTRANSITIONAL) =? 0) && negb (Z.land f IDN2_NO_TR46 =? 0)) eqn:C2.
    { apply (runs_seq_stop rt cl); [|exact I]. eapply lk_when; [eapply lk_and; [apply flag_ev2; [lia|discriminate|discriminate]|intros _; apply flag_ev; [lia|discriminate]]|intros _; apply RR|rewrite C2; discriminate]. }
    eapply (runs_seq rt cl lk_mono). { eapply lk_when; [eapply lk_and; [apply flag_ev2; [lia|discriminate|discriminate]|intros _; apply flag_ev; [lia|discriminate]]|rewrite C2; discriminate|intros _; apply runs_skip]. }
    destruct (negb (Z.land f IDN2_ALABEL_ROUNDTRIP =? 0) && negb (Z.land f IDN2_NO_ALABEL_ROUNDTRIP =? 0)) eqn:C3.
    { apply (runs_seq_stop rt cl); [|exact I]. eapply lk_when; [eapply lk_and; [apply flag_ev; [lia|discriminate]|intros _; apply flag_ev; [lia|discriminate]]|intros _; apply RR|rewrite C3; discriminate]. }
    eapply (runs_seq rt cl lk_mono). { eapply lk_when; [eapply lk_and; [apply flag_ev; [lia|discriminate]|intros _; apply flag_ev; [lia|discriminate]]|rewrite C3; discriminate|intros _; apply runs_skip]. }
    rewrite negb_involutive. destruct (flag_ev2 f IDN2_NO_TR46 IDN2_TRANSITIONAL H ltac:(discriminate) ltac:(discriminate)) as (n & E).
    assert (CO : forall b : bool, code_of (if b then Ok (Z.lor f IDN2_NONTRANSITIONAL) else Ok f) = 0) by (intros []; reflexivity). rewrite CO. clear CO.
    eapply (runs_seq rt cl lk_mono); [|apply RR]. eapply (runs_if rt cl lk_mono); [exists n; cbn [eval]; cbn [eval] in E; rewrite E; reflexivity|].
    cbn [snd]. destruct (Z.land f (Z.lor IDN2_NO_TR46 IDN2_TRANSITIONAL) =? 0); cbn [Z.eqb]; [|apply runs_skip].
    exists O. split; [|discriminate]. cbn. change (cell [Some f] 0) with (Val f). cbn. unfold cast. cbn. replace (f <? 0) with false by lia. cbn. reflexivity.
  Qed.

  (** ** c_strncasecmp *)
  Lemma tolower_ok : forallb (fun i => match calls P 1 0 "c_tolower" [(U8, Z.of_nat i)] [] with Val v => v =? lower (Z.of_nat i) | _ => false end) (seq 0 256) = true.
  Proof. vm_compute. reflexivity. Qed.
  Lemma lib_tolower : forall n c, 0 <= c <= 255 -> cl n "c_tolower" [(U8, c)] [] = Val (lower c).
  Proof.
    intros n c H. pose proof tolower_ok as T. rewrite forallb_forall in T. specialize (T (Z.to_nat c) ltac:(apply in_seq; lia)). rewrite Z2Nat.id in T by lia.
    destruct (calls P 1 0 "c_tolower" [(U8, c)] []) as [v| |] eqn:E; try discriminate T. apply Z.eqb_eq in T. subst v. rewrite <- E. apply calls_mono; [lia|rewrite E; discriminate].
  Qed.
  Lemma ty_tolower : rt "c_tolower" = I32. Proof. reflexivity. Qed.
  Lemma lower_byte : forall c, 0 <= c <= 255 -> 0 <= lower c <= 255 /\ (lower c = 0 <-> c = 0).
  Proof. intros c H. unfold lower. destruct ((65 <=? c) && (c <=? 90)) eqn:E; lia. Qed.
  Section Compare.
    Variables (s1 s2 : list Z) (t1 t2 : list (option Z)).
    Hypothesis B1 : Forall (fun b => 0 <= b <= 255) s1.
    Hypothesis B2 : Forall (fun b => 0 <= b <= 255) s2.
    Hypothesis L1 : zlen s1 < two64.
    Definition smem : list (string * carr) := [("s1", (U8, map Some s1 ++ t1)); ("s2", (U8, map Some s2 ++ t2))].
    Lemma cell_more : forall (l a : list Z) x r t, l = a ++ x :: r -> cell (map Some l ++ t) (zlen a) = Val x.
    Proof. intros l a x r t ->. rewrite map_app, <- app_assoc. cbn [map app]. rewrite <- (zlen_map _ _ (@Some Z) a). apply cell_app. Qed.
    Definition ss (n : Z) (p q c d : option Z) : cst := mkst [("n", (U64, Some n)); ("p1", (U64, p)); ("p2", (U64, q)); ("c1", (U8, c)); ("c2", (U8, d))] smem.
    Definition s_loop : stmt := Eval cbn in match f_body c_c_strncasecmp with SSeq _ (SSeq _ (SSeq _ (SSeq s _))) => s | s => s end.
    Definition s_body : stmt := Eval cbn in match s_loop with SLoop _ _ s => s | s => s end.
    Lemma compare_step : forall N a b x y r1 r2 c d, s1 = a ++ x :: r1 -> s2 = b ++ y :: r2 -> zlen a = zlen b -> 1 <= N < two64 -> 0 <= x <= 255 -> 0 <= y <= 255 ->
      R s_body (ss N (Some (zlen a)) (Some (zlen b)) c d)
        (if (N - 1 =? 0) || (lower x =? 0) then Brk (ss (N - 1) (Some (zlen a)) (Some (zlen b)) (Some (lower x)) (Some (lower y)))
         else (if lower x =? lower y then Norm else Brk) (ss (N - 1) (Some (zlen a + 1)) (Some (zlen b + 1)) (Some (lower x)) (Some (lower y)))).
    Proof.
      intros N a b x y r1 r2 c d E1 E2 AB HN X Y. destruct (lower_byte x X) as (LX & ZX), (lower_byte y Y) as (LY & ZY). unfold two64 in *.
      pose proof (f_equal zlen E1) as Z1. rewrite zlen_app, zlen_cons in Z1. pose proof (z0 _ r1). pose proof (z0 _ a). unfold s_body.
      eapply (runs_seq rt cl lk_mono). { eapply (runs_exp rt cl). exists O. cc. rewrite (cell_more s1 a x r1 t1 E1). cbn. rewrite lib_tolower by assumption. cbn. rewrite ty_tolower. cc. rewrite Z.mod_small by lia. reflexivity. }
      eapply (runs_seq rt cl lk_mono). { eapply (runs_exp rt cl). exists O. cc. rewrite (cell_more s2 b y r2 t2 E2). cbn. rewrite lib_tolower by assumption. cbn. rewrite ty_tolower. cc. rewrite Z.mod_small by lia. reflexivity. }
      assert (C : evals rt cl (EOr (EBin Eq (EOp Sub "n" (int 1)) (int 0)) (EBin Eq (EVar "c1") (int 0))) (ss N (Some (zlen a)) (Some (zlen b)) (Some (lower x)) (Some (lower y)))
        (I32, if (N - 1 =? 0) || (lower x =? 0) then 1 else 0) (ss (N - 1) (Some (zlen a)) (Some (zlen b)) (Some (lower x)) (Some (lower y)))).
      { exists O. cc. rewrite (u64_id (N - 1)) by (unfold two64; lia). destruct (N - 1 =? 0); cc; [reflexivity|]. destruct (lower x =? 0); reflexivity. }
      destruct ((N - 1 =? 0) || (lower x =? 0)).
      - eapply (runs_seq_stop rt cl); [|exact I]. eapply (runs_if rt cl lk_mono); [exact C|]. apply runs_brk.
      - eapply (runs_seq rt cl lk_mono). { eapply (runs_if rt cl lk_mono); [exact C|]. apply runs_skip. }
        eapply (runs_seq rt cl lk_mono). { eapply (runs_exp rt cl). exists O. cc. rewrite (u64_id (zlen a + 1)) by (unfold two64; lia). reflexivity. }
        eapply (runs_seq rt cl lk_mono). { eapply (runs_exp rt cl). exists O. cc. rewrite (u64_id (zlen b + 1)) by (unfold two64; lia). reflexivity. }
        eapply (runs_if rt cl lk_mono). { exists O. cc. reflexivity. }
        cbn [snd]. destruct (lower x =? lower y); cbn [Z.eqb]; [apply runs_skip|apply runs_brk].
    Qed.
    Lemma compare_runs : forall k a b r1 r2 c d, s1 = a ++ r1 -> s2 = b ++ r2 -> zlen a = zlen b -> Z.of_nat (S k) <= zlen r1 -> Z.of_nat (S k) <= zlen r2 ->
      exists n p q u v, R s_loop (ss (Z.of_nat (S k)) (Some (zlen a)) (Some (zlen b)) c d) (Norm (ss n p q (Some u) (Some v))) /\ 0 <= u <= 255 /\ 0 <= v <= 255 /\
        (u = v <-> map lower (counted (S k) r1) = map lower (counted (S k) r2)).
    Proof.
      induction k as [|k IH]; intros a b r1 r2 c d E1 E2 AB K1 K2;
        (destruct r1 as [|x r1]; [change (zlen (@nil Z)) with 0 in K1; lia|]); (destruct r2 as [|y r2]; [change (zlen (@nil Z)) with 0 in K2; lia|]).
      all: assert (X : 0 <= x <= 255) by (rewrite E1 in B1; apply Forall_app in B1; destruct B1 as (_ & Q); inversion Q; assumption).
      all: assert (Y : 0 <= y <= 255) by (rewrite E2 in B2; apply Forall_app in B2; destruct B2 as (_ & Q); inversion Q; assumption).
      all: destruct (lower_byte x X) as (LX & ZX), (lower_byte y Y) as (LY & ZY).
      all: pose proof (f_equal zlen E1) as Z1; rewrite zlen_app, zlen_cons in Z1; pose proof (z0 _ r1); pose proof (z0 _ a); rewrite zlen_cons in K1, K2; unfold two64 in *.
      all: pose proof (fun N => compare_step N a b x y r1 r2 c d E1 E2 AB) as ST; unfold two64 in ST.
      - specialize (ST (Z.of_nat 1) ltac:(lia) X Y). cbn [Z.of_nat Pos.of_succ_nat] in ST |- *. change (1 - 1) with 0 in ST. cbn [Z.eqb orb] in ST.
        exists 0, (Some (zlen a)), (Some (zlen b)), (lower x), (lower y). split; [|split; [exact LX|split; [exact LY|]]].
        + exact (lk_break _ _ _ ST).
        + cbn [counted]. destruct (x =? 0) eqn:Q1, (y =? 0) eqn:Q2; cbn [map]; split; intros E; try lia; try discriminate E; try congruence.
      - remember (Z.of_nat (S (S k))) as N eqn:HN. assert (NK : N - 1 = Z.of_nat (S k)) by lia. specialize (ST N ltac:(lia) X Y). rewrite NK in ST. assert (Q0 : (Z.of_nat (S k) =? 0) = false) by reflexivity. rewrite Q0 in ST. cbn [orb] in ST.
        cbn [counted] in *. fold (counted (S k) r1) in *. fold (counted (S k) r2) in *.
        destruct (lower x =? 0) eqn:Q1; [|destruct (lower x =? lower y) eqn:Q2].
        + exists (Z.of_nat (S k)), (Some (zlen a)), (Some (zlen b)), (lower x), (lower y). split; [|split; [exact LX|split; [exact LY|]]].
          * exact (lk_break _ _ _ ST).
          * replace (x =? 0) with true by lia. destruct (y =? 0) eqn:Q3; cbn [map]; split; intros E; try lia; try discriminate E; reflexivity.
        + destruct (IH (a ++ [x]) (b ++ [y]) r1 r2 (Some (lower x)) (Some (lower y)) ltac:(rewrite <- app_assoc; exact E1) ltac:(rewrite <- app_assoc; exact E2)
            ltac:(rewrite !zlen_app, AB; reflexivity) ltac:(lia) ltac:(lia)) as (n & p & q & u & v & A1 & A2 & A3 & A4).
          exists n, p, q, u, v. split; [|split; [exact A2|split; [exact A3|]]].
          * rewrite !zlen_app in A1. change (zlen [x]) with 1 in A1. change (zlen [y]) with 1 in A1.
            eapply (runs_loop_next rt cl lk_mono _ _ _ _ (I32, 1)); [exists O; reflexivity|discriminate|exact ST|apply runs_skip|exact A1].
          * rewrite A4. replace (x =? 0) with false by lia. replace (y =? 0) with false by lia. cbn [map]. apply Z.eqb_eq in Q2. rewrite Q2. split; congruence.
        + exists (Z.of_nat (S k)), (Some (zlen a + 1)), (Some (zlen b + 1)), (lower x), (lower y). split; [|split; [exact LX|split; [exact LY|]]].
          * exact (lk_break _ _ _ ST).
          * replace (x =? 0) with false by lia. destruct (y =? 0) eqn:Q3; cbn [map]; split; intros E; try lia; try discriminate E. exfalso. assert (lower x = lower y) by congruence. lia.
    Qed.
    Lemma compare_body : forall n, 0 <= n <= zlen s1 -> n <= zlen s2 -> exists v st, R (f_body c_c_strncasecmp) (ss n None None None None) (Ret (I32, v) st) /\ arrs st = smem /\
      -255 <= v <= 255 /\ (v = 0 <-> map lower (counted (Z.to_nat n) s1) = map lower (counted (Z.to_nat n) s2)).
    Proof.
      intros n N1 N2. change (f_body c_c_strncasecmp) with (SSeq (SExp (EAsg "p1" (int 0))) (SSeq (SExp (EAsg "p2" (int 0))) (SSeq (SIf (EOr (int 0) (EBin Eq (EVar "n") (int 0))) (SReturn (int 0)) SSkip) (SSeq s_loop (SReturn (EBin Sub (EVar "c1") (EVar "c2"))))))).
      assert (PR : forall s o, R s (ss n (Some 0) (Some 0) None None) o -> R (SSeq (SExp (EAsg "p1" (int 0))) (SSeq (SExp (EAsg "p2" (int 0))) s)) (ss n None None None None) o).
      { intros s o Q. eapply (runs_seq rt cl lk_mono); [eapply (runs_exp rt cl); exists O; cc; reflexivity|]. eapply (runs_seq rt cl lk_mono); [eapply (runs_exp rt cl); exists O; cc; reflexivity|exact Q]. }
      assert (C : evals rt cl (EOr (int 0) (EBin Eq (EVar "n") (int 0))) (ss n (Some 0) (Some 0) None None) (I32, if n =? 0 then 1 else 0) (ss n (Some 0) (Some 0) None None)).
      { exists O. cc. destruct (n =? 0); reflexivity. }
      destruct (n =? 0) eqn:Q.
      - exists 0, (ss n (Some 0) (Some 0) None None). split; [|split; [reflexivity|split; [lia|]]].
        + apply PR. eapply (runs_seq_stop rt cl); [|exact I]. eapply (runs_if rt cl lk_mono); [exact C|]. eapply (runs_ret rt cl). exists O. reflexivity.
        + assert (n = 0) as -> by lia. split; reflexivity.
      - destruct (compare_runs (Z.to_nat n - 1) [] [] s1 s2 None None eq_refl eq_refl eq_refl ltac:(lia) ltac:(lia)) as (m & p & q & u & v & A1 & A2 & A3 & A4).
        replace (S (Z.to_nat n - 1)) with (Z.to_nat n) in * by lia. rewrite Z2Nat.id in A1 by lia.
        exists (u - v), (ss m p q (Some u) (Some v)). split; [|split; [reflexivity|split; [lia|rewrite <- A4; lia]]].
        apply PR. eapply (runs_seq rt cl lk_mono); [eapply (runs_if rt cl lk_mono); [exact C|apply runs_skip]|]. eapply (runs_seq rt cl lk_mono); [exact A1|].
        eapply (runs_ret rt cl). exists O. cc. unfold arith. cbn. replace ((-2147483648 <=? u - v) && (u - v <=? 2147483647)) with true by lia. reflexivity.
    Qed.
  End Compare.
End Rules.
