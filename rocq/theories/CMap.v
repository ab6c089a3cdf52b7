(** The text of lib/tr46map.c: records of bytes. *)
From Coq Require Import String.
From Verif Require Import Base PunyBase DataTypes Bsearch BsearchProofs Tables TablesProofs Gentr46 Gentr46Proofs Tr46Map Tr46Valid CLang CLogic CLeaf CDecode CEncode CBidi CTables SpecCPuny SpecCTables CSearch CTablesProofs.
Local Open Scope string_scope.
Local Open Scope list_scope.
Local Open Scope Z_scope.

Lemma assoc_left : forall A x (v : A) l r, assoc x l = Some v -> assoc x (l ++ r) = Some v.
Proof. intros A x v l r. induction l as [|[y a] l IH]; cbn; [discriminate|]. destruct (x =? y)%string; auto. Qed.
Lemma assoc_right : forall A x (l r : list (string * A)), assoc x l = None -> assoc x (l ++ r) = assoc x r.
Proof. intros A x l r. induction l as [|[y a] l IH]; cbn; [reflexivity|]. destruct (x =? y)%string; [discriminate|auto]. Qed.
Lemma update_right : forall A x f (l r : list (string * A)), assoc x l = None -> update x f (l ++ r) = l ++ update x f r.
Proof. intros A x f l r. induction l as [|[y a] l IH]; cbn; [reflexivity|]. destruct (x =? y)%string; [discriminate|]. intros H. rewrite IH by exact H. reflexivity. Qed.
Lemma nth_skip : forall A (l : list A) k i, nth_error (skipn k l) i = nth_error l (k + i).
Proof. intros A l k. revert l. induction k as [|k IH]; intros l i; [reflexivity|]. destruct l as [|x l]; cbn [skipn]; [destruct i; reflexivity|]. cbn. apply IH. Qed.

Section Fill.
  Variables (rt : string -> cty) (cl : nat -> string -> list (cty * Z) -> list carr -> res Z).
  Variables (pre : list (string * carr)) (bytes : string) (tbl : list Z) (c : Z).
  Hypothesis Hpre : assoc bytes pre = Some (U8, map Some tbl).
  Hypothesis Hmem : forallb (fun x => match assoc x pre with None => true | _ => false end) members = true.
  Hypothesis Hb : Forall (fun b => 0 <= b <= 255) tbl.
  Hypothesis Hl : zlen tbl < top.
  Hypothesis Hc : 0 <= c < two32.
  Definition fs (p : Z) (v a b d e f : option Z) : cst := mkst [("c", (U32, Some c)); ("p", (I64, Some p)); ("value", (U32, v))] (pre ++ map_arrays a b d e f).
  Lemma not_pre : forall x, In x members -> assoc x pre = None.
  Proof. intros x I. rewrite forallb_forall in Hmem. specialize (Hmem x I). destruct (assoc x pre); [discriminate Hmem|reflexivity]. Qed.
  Lemma store_one : forall n a e st t0 o t z st1, eval rt cl n e st = Val ((t, z), st1) -> assoc a (arrs st1) = Some (t0, [o]) ->
    exec rt cl n (SStore a (int 0) e) st = Norm (mkst (vars st1) (update a (fun _ => (t0, [Some (cast t t0 z)])) (arrs st1))).
  Proof. intros n a e st t0 o t z st1 E A. cbn. rewrite E. cbn. rewrite A. reflexivity. Qed.
  Ltac store E := erewrite store_one; [|exact E|cbn [arrs fs]; rewrite assoc_right by (apply not_pre; cbn; tauto); reflexivity]; cbn [arrs vars fs]; rewrite update_right by (apply not_pre; cbn; tauto).
  Lemma store_cp1 : forall n e t z p p' v a b d x f, eval rt cl n e (fs p v a b d x f) = Val ((t, z), fs p' v a b d x f) -> cast t U32 z = z ->
    exec rt cl n (SStore "map->cp1" (int 0) e) (fs p v a b d x f) = Norm (fs p' v (Some z) b d x f).
  Proof. intros n e t z p p' v a b d x f E C. store E. rewrite C. reflexivity. Qed.
  Lemma store_range : forall n e t z p p' v a b d x f, eval rt cl n e (fs p v a b d x f) = Val ((t, z), fs p' v a b d x f) -> cast t I32 z = z ->
    exec rt cl n (SStore "map->range" (int 0) e) (fs p v a b d x f) = Norm (fs p' v a (Some z) d x f).
  Proof. intros n e t z p p' v a b d x f E C. store E. rewrite C. reflexivity. Qed.
  Lemma store_n : forall n e t z p p' v a b d x f, eval rt cl n e (fs p v a b d x f) = Val ((t, z), fs p' v a b d x f) -> cast t I32 z = z ->
    exec rt cl n (SStore "map->nmappings" (int 0) e) (fs p v a b d x f) = Norm (fs p' v a b (Some z) x f).
  Proof. intros n e t z p p' v a b d x f E C. store E. rewrite C. reflexivity. Qed.
  Lemma store_off : forall n e t z p p' v a b d x f, eval rt cl n e (fs p v a b d x f) = Val ((t, z), fs p' v a b d x f) -> cast t I32 z = z ->
    exec rt cl n (SStore "map->offset" (int 0) e) (fs p v a b d x f) = Norm (fs p' v a b d (Some z) f).
  Proof. intros n e t z p p' v a b d x f E C. store E. rewrite C. reflexivity. Qed.
  Lemma store_idx : forall n e t z p p' v a b d x f, eval rt cl n e (fs p v a b d x f) = Val ((t, z), fs p' v a b d x f) -> cast t I32 z = z ->
    exec rt cl n (SStore "map->flag_index" (int 0) e) (fs p v a b d x f) = Norm (fs p' v a b d x (Some z)).
  Proof. intros n e t z p p' v a b d x f E C. store E. rewrite C. reflexivity. Qed.

  Lemma at_byte : forall p i k x v a b d e f, 0 <= p -> i = Z.of_nat k -> (k < 8)%nat -> nth_error (skipn (Z.to_nat p) tbl) k = Some x -> byte_at bytes (fs p v a b d e f) p i x.
  Proof.
    intros p i k x v a b d e f P -> K E. rewrite nth_skip in E. pose proof (proj1 (nth_error_Some tbl (Z.to_nat p + k)) ltac:(congruence)) as L.
    assert (Z1 : p < zlen tbl) by (unfold zlen; lia). split; [rewrite Forall_forall in Hb; apply Hb; exact (nth_error_In _ _ E)|]. split; [lia|]. split; [lia|]. split; [reflexivity|].
    exists (map Some tbl). split; [apply assoc_left; exact Hpre|]. apply (cell_map Z (fun z => z)); [rewrite Z2Nat.inj_add, Nat2Z.id by lia; exact E|]. unfold zlen. lia.
  Qed.
  (** *p++ *)
  Lemma ev_post : forall n p x v a b d e f, byte_at bytes (fs p v a b d e f) p 0 x -> eval rt cl n (EIdx bytes (EPost "p")) (fs p v a b d e f) = Val ((U8, x), fs (p + 1) v a b d e f).
  Proof.
    intros n p x v a b d e f (X & PP & _ & _ & l & AL & C). unfold top in PP. cbn. cc. unfold arith. cbn. destruct ((-9223372036854775808 <=? p + 1) && (p + 1 <=? 9223372036854775807)) eqn:Q; [|lia]. cc.
    change (arrs (fs p v a b d e f)) with (pre ++ map_arrays a b d e f) in AL. rewrite AL. rewrite Z.add_0_r in C. rewrite C. reflexivity.
  Qed.
  Lemma add_p : forall n k p v a b d e f, 0 <= p < top -> 0 <= k < 8 -> exec rt cl n (SExp (EOp Add "p" (int k))) (fs p v a b d e f) = Norm (fs (p + k) v a b d e f).
  Proof.
    intros n k p v a b d e f P K. unfold top in P. cbn. cc. unfold arith. cbn. destruct ((-9223372036854775808 <=? p + k) && (p + k <=? 9223372036854775807)) eqn:Q; [|lia]. reflexivity.
  Qed.
  Lemma exec_seq : forall n a b st, exec rt cl n (SSeq a b) st = after (exec rt cl n a st) (exec rt cl n b). Proof. reflexivity. Qed.
  Definition tail_text : stmt := Eval cbn in match c_fill_map bytes with SSeq _ t => t | s => s end.
  Lemma masked : forall z w, 0 <= w <= 16 -> cast U32 I32 (Z.land z (Z.ones w)) = Z.land z (Z.ones w).
  Proof.
    intros z w W. pose proof (land_mask z w (proj1 W)) as L. assert (2 ^ w <= 2 ^ 16) by (apply Z.pow_le_mono_r; lia). change (2 ^ 16) with 65536 in *. unfold cast. cbn [fits]. apply conv_i32. lia.
  Qed.
  Lemma ones_twice : forall z w, Z.land (Z.land z (Z.ones w)) (Z.ones w) = Z.land z (Z.ones w). Proof. intros z w. rewrite <- Z.land_assoc, Z.land_diag. reflexivity. Qed.
  Lemma tail_exec : forall n p m cp1 range v d e f, 0 <= p -> fill_value cp1 range (skipn (Z.to_nat p) tbl) = Ok m ->
    exists v', exec rt cl n tail_text (fs p v (Some cp1) (Some range) d e f) = Norm (fs p (Some v') (Some (m_cp1 m)) (Some (m_range m)) (Some (m_n m)) (Some (m_off m)) (Some (m_idx m))).
  Proof.
    intros n p m cp1 range v d e f P F. destruct (skipn (Z.to_nat p) tbl) as [|b0 [|b1 [|b2 q]]] eqn:Q; try discriminate F. cbn [fill_value] in F. apply (f_equal (fun o => match o with Ok x => x | _ => m end)) in F. cbv beta iota zeta in F. subst m. cbn [m_cp1 m_range m_n m_off m_idx].
    assert (A0 : forall v a b d e f, byte_at bytes (fs p v a b d e f) p 0 b0) by (intros; apply (at_byte p 0 0); [exact P|reflexivity|lia|rewrite Q; reflexivity]).
    assert (A1 : forall v a b d e f, byte_at bytes (fs p v a b d e f) p 1 b1) by (intros; apply (at_byte p 1 1); [exact P|reflexivity|lia|rewrite Q; reflexivity]).
    assert (A2 : forall v a b d e f, byte_at bytes (fs p v a b d e f) p 2 b2) by (intros; apply (at_byte p 2 2); [exact P|reflexivity|lia|rewrite Q; reflexivity]).
    pose proof (proj1 (A0 None None None None None None)) as R0. pose proof (proj1 (A1 None None None None None None)) as R1. pose proof (proj1 (A2 None None None None None None)) as R2.
    pose proof (word24 b0 b1 b2 R0 R1 R2) as W. set (value := Z.lor (Z.lor (Z.shiftl b0 16) (Z.shiftl b1 8)) b2) in *. exists value.
    unfold tail_text. match goal with |- exec rt cl n (SSeq ?s ?t) ?st = _ => change (exec rt cl n (SSeq s t) st) with (after (exec rt cl n s st) (exec rt cl n t)) end.
    match goal with |- context [exec rt cl n (SExp (EAsg "value" ?ex)) ?st] => replace (exec rt cl n (SExp (EAsg "value" ex)) st) with (Norm (fs p (Some value) (Some cp1) (Some range) d e f)) end.
    2: { symmetry. cbn [exec]. cbn [eval]. pose proof (ev24 rt cl n bytes _ p 0 1 2 b0 b1 b2 (A0 v (Some cp1) (Some range) d e f) (A1 v (Some cp1) (Some range) d e f) (A2 v (Some cp1) (Some range) d e f)) as E. cbn [eval] in E. rewrite E. fold value. cbn. unfold cast. cbn. rewrite (u32_id value) by lia. reflexivity. }
    cbn [after].
    assert (V : forall k w a b d e f, 0 <= k < 32 -> 0 <= w <= 16 -> eval rt cl n (bits w (EBin BAnd (EBin Shr (EVar "value") (int k)) (int (Z.ones w)))) (fs p (Some value) a b d e f) = Val ((U32, Z.land (Z.shiftr value k) (Z.ones w)), fs p (Some value) a b d e f)).
    { intros k w a b d1 e1 f1 K W1. assert (S0 : 0 <= Z.shiftr value k < 16777216). { rewrite Z.shiftr_div_pow2 by lia. assert (0 < 2 ^ k) by (apply Z.pow_pos_nonneg; lia). split; [apply Z.div_pos; lia|]. apply Z.div_lt_upper_bound; [lia|]. nia. }
      pose proof (land_mask (Z.shiftr value k) w (proj1 W1)) as LM. assert (LW : 2 ^ w <= 2 ^ 16) by (apply Z.pow_le_mono_r; lia). change (2 ^ 16) with 65536 in LW. assert (O1 : 0 <= Z.ones w < 65536) by (rewrite Z.ones_equiv; lia).
      rewrite <- (ones_twice (Z.shiftr value k) w). apply (ev_bits rt cl n _ _ U32); [|auto|lia|lia]. cbn. cc. destruct (k <? 0) eqn:Q1; [lia|]. destruct (32 <=? k) eqn:Q2; [lia|]. destruct (value <? 0) eqn:Q3; [lia|]. cc.
      rewrite (u32_id (Z.ones w)) by lia. destruct (Z.shiftr value k <? 0) eqn:Q4; [lia|]. destruct (Z.ones w <? 0) eqn:Q5; [lia|]. reflexivity. }
    assert (V0 : forall a b d e f, eval rt cl n (bits 3 (EBin BAnd (EVar "value") (int 7))) (fs p (Some value) a b d e f) = Val ((U32, Z.land value (Z.ones 3)), fs p (Some value) a b d e f)).
    { intros a b d1 e1 f1. rewrite <- (ones_twice value 3). pose proof (land_mask value 3 ltac:(lia)). change (2 ^ 3) with 8 in *. apply (ev_bits rt cl n _ _ U32); [|auto|lia|lia]. cbn. cc. destruct (value <? 0) eqn:Q3; [lia|]. reflexivity. }
    rewrite exec_seq, (store_idx n _ U32 _ p p (Some value) (Some cp1) (Some range) d e f (V0 _ _ _ _ _) (masked _ 3 ltac:(lia))). cbn [after].
    rewrite exec_seq, (store_off n _ U32 _ p p (Some value) (Some cp1) (Some range) d e _ (V 3 14 _ _ _ _ _ ltac:(lia) ltac:(lia)) (masked _ 14 ltac:(lia))). cbn [after].
    rewrite (store_n n _ U32 _ p p (Some value) (Some cp1) (Some range) d _ _ (V 17 5 _ _ _ _ _ ltac:(lia) ltac:(lia)) (masked _ 5 ltac:(lia))). reflexivity.
  Qed.
  Lemma skip_more : forall p q k, 0 <= p -> skipn (Z.to_nat p) tbl = q -> 0 <= k -> skipn (Z.to_nat (p + k)) tbl = skipn (Z.to_nat k) q.
  Proof. intros p q k P <- K. rewrite skipn_skipn', Z2Nat.inj_add by lia. reflexivity. Qed.
  Lemma le_c : forall n k p v a b d e f, 0 <= k < 65536 -> eval rt cl n (EBin Le (EVar "c") (int k)) (fs p v a b d e f) = Val ((I32, if c <=? k then 1 else 0), fs p v a b d e f).
  Proof. intros n k p v a b d e f K. cbn. cc. rewrite (u32_id k) by lia. reflexivity. Qed.
  Lemma fill_exec : forall n p m v a b d e f, 0 <= p -> fill_map c (skipn (Z.to_nat p) tbl) = Ok m ->
    exists p' v', exec rt cl n (c_fill_map bytes) (fs p v a b d e f) = Norm (fs p' (Some v') (Some (m_cp1 m)) (Some (m_range m)) (Some (m_n m)) (Some (m_off m)) (Some (m_idx m))).
  Proof.
    intros n p m v a b d e f P F. unfold c_fill_map. rewrite exec_seq. fold tail_text. unfold fill_map in F.
    assert (IFS : forall k s t st, st = fs p v a b d e f -> 0 <= k < 65536 -> exec rt cl n (SIf (EBin Le (EVar "c") (int k)) s t) st = if c <=? k then exec rt cl n s st else exec rt cl n t st).
    { intros k s t st -> K. cbn [exec]. rewrite (le_c n k) by exact K. cbn [obind snd]. destruct (c <=? k); reflexivity. }
    rewrite IFS by (try reflexivity; lia). destruct (c <=? 255) eqn:C1.
    { destruct (skipn (Z.to_nat p) tbl) as [|p0 [|p1 r]] eqn:Q; try discriminate F. cbn [fill_map] in F.
      assert (A0 : forall v a b d e f, byte_at bytes (fs p v a b d e f) p 0 p0) by (intros; apply (at_byte p 0 0); [exact P|reflexivity|lia|rewrite Q; reflexivity]).
      assert (A1 : forall v a b d e f, byte_at bytes (fs (p + 1) v a b d e f) (p + 1) 0 p1) by (intros; apply (at_byte (p + 1) 0 0); [lia|reflexivity|lia|rewrite (skip_more p _ 1 P Q) by lia; reflexivity]).
      pose proof (proj1 (A0 None None None None None None)) as R0. pose proof (proj1 (A1 None None None None None None)) as R1.
      rewrite exec_seq, (store_cp1 n _ U8 p0 p (p + 1) v a b d e f (ev_post n p p0 v a b d e f (A0 _ _ _ _ _ _)) eq_refl). cbn [after].
      assert (EB : eval rt cl n (bits 16 (EIdx bytes (EPost "p"))) (fs (p + 1) v (Some p0) b d e f) = Val ((U32, p1), fs (p + 1 + 1) v (Some p0) b d e f)).
      { unfold bits. rewrite eval_bin, (ev_post n (p + 1) p1 v (Some p0) b d e f (A1 _ _ _ _ _ _)). cbn [rbind eval]. cc. destruct (p1 <? 0) eqn:QQ; [lia|]. cc. change 65535 with (Z.ones 16). rewrite Z.land_ones by lia. rewrite Z.mod_small by (change (2 ^ 16) with 65536; lia). reflexivity. }
      rewrite (store_range n _ U32 p1 (p + 1) (p + 1 + 1) v (Some p0) b d e f EB) by (unfold cast; cbn [fits]; apply conv_i32; lia). cbn [after].
      replace (p + 1 + 1) with (p + 2) by lia. destruct (tail_exec n (p + 2) m p0 p1 v d e f ltac:(lia)) as (v' & T); [rewrite (skip_more p _ 2 P Q) by lia; exact F|]. exists (p + 2), v'. exact T. }
    rewrite IFS by (try reflexivity; lia). destruct (c <=? 65535) eqn:C2.
    { destruct (skipn (Z.to_nat p) tbl) as [|p0 [|p1 [|p2 [|p3 r]]]] eqn:Q; try discriminate F.
      assert (A0 : forall v a b d e f, byte_at bytes (fs p v a b d e f) p 0 p0) by (intros; apply (at_byte p 0 0); [exact P|reflexivity|lia|rewrite Q; reflexivity]).
      assert (A1 : forall v a b d e f, byte_at bytes (fs p v a b d e f) p 1 p1) by (intros; apply (at_byte p 1 1); [exact P|reflexivity|lia|rewrite Q; reflexivity]).
      assert (A2 : forall v a b d e f, byte_at bytes (fs p v a b d e f) p 2 p2) by (intros; apply (at_byte p 2 2); [exact P|reflexivity|lia|rewrite Q; reflexivity]).
      assert (A3 : forall v a b d e f, byte_at bytes (fs p v a b d e f) p 3 p3) by (intros; apply (at_byte p 3 3); [exact P|reflexivity|lia|rewrite Q; reflexivity]).
      pose proof (proj1 (A0 None None None None None None)) as R0. pose proof (proj1 (A1 None None None None None None)) as R1. pose proof (proj1 (A2 None None None None None None)) as R2. pose proof (proj1 (A3 None None None None None None)) as R3.
      pose proof (word16 p0 p1 R0 R1) as W1. pose proof (word16 p2 p3 R2 R3) as W2.
      rewrite exec_seq, (store_cp1 n _ I32 (Z.lor (Z.shiftl p0 8) p1) p p v a b d e f (ev16 rt cl n bytes _ p 0 1 p0 p1 (A0 _ _ _ _ _ _) (A1 _ _ _ _ _ _))) by (unfold cast; cbn [fits conv]; apply u32_id; lia). cbn [after].
      assert (EB : eval rt cl n (bits 16 (EBin BOr (EBin Shl (EIdx bytes (EBin Add (EVar "p") (int 2))) (int 8)) (EIdx bytes (EBin Add (EVar "p") (int 3))))) (fs p v (Some (Z.lor (Z.shiftl p0 8) p1)) b d e f) = Val ((U32, Z.lor (Z.shiftl p2 8) p3), fs p v (Some (Z.lor (Z.shiftl p0 8) p1)) b d e f)).
      { rewrite (ev_bits rt cl n _ _ I32 _ 16 (ev16 rt cl n bytes _ p 2 3 p2 p3 (A2 _ _ _ _ _ _) (A3 _ _ _ _ _ _))) by first [lia|auto]. rewrite Z.land_ones by lia. rewrite Z.mod_small by (change (2 ^ 16) with 65536; lia). reflexivity. }
      rewrite exec_seq, (store_range n _ U32 _ p p v _ b d e f EB) by (unfold cast; cbn [fits]; apply conv_i32; lia). cbn [after].
      pose proof (A0 None None None None None None) as (_ & PT & _). rewrite (add_p n 4) by (exact PT || lia). cbn [after].
      destruct (tail_exec n (p + 4) m (Z.lor (Z.shiftl p0 8) p1) (Z.lor (Z.shiftl p2 8) p3) v d e f ltac:(lia)) as (v' & T); [rewrite (skip_more p _ 4 P Q) by lia; exact F|]. exists (p + 4), v'. exact T. }
    destruct (skipn (Z.to_nat p) tbl) as [|p0 [|p1 [|p2 [|p3 [|p4 r]]]]] eqn:Q; try discriminate F.
    assert (A0 : forall v a b d e f, byte_at bytes (fs p v a b d e f) p 0 p0) by (intros; apply (at_byte p 0 0); [exact P|reflexivity|lia|rewrite Q; reflexivity]).
    assert (A1 : forall v a b d e f, byte_at bytes (fs p v a b d e f) p 1 p1) by (intros; apply (at_byte p 1 1); [exact P|reflexivity|lia|rewrite Q; reflexivity]).
    assert (A2 : forall v a b d e f, byte_at bytes (fs p v a b d e f) p 2 p2) by (intros; apply (at_byte p 2 2); [exact P|reflexivity|lia|rewrite Q; reflexivity]).
    assert (A3 : forall v a b d e f, byte_at bytes (fs p v a b d e f) p 3 p3) by (intros; apply (at_byte p 3 3); [exact P|reflexivity|lia|rewrite Q; reflexivity]).
    assert (A4 : forall v a b d e f, byte_at bytes (fs p v a b d e f) p 4 p4) by (intros; apply (at_byte p 4 4); [exact P|reflexivity|lia|rewrite Q; reflexivity]).
    pose proof (proj1 (A0 None None None None None None)) as R0. pose proof (proj1 (A1 None None None None None None)) as R1. pose proof (proj1 (A2 None None None None None None)) as R2. pose proof (proj1 (A3 None None None None None None)) as R3. pose proof (proj1 (A4 None None None None None None)) as R4.
    pose proof (word24 p0 p1 p2 R0 R1 R2) as W1. pose proof (word16 p3 p4 R3 R4) as W2. set (cp1 := Z.lor (Z.lor (Z.shiftl p0 16) (Z.shiftl p1 8)) p2) in *.
    rewrite exec_seq, (store_cp1 n _ I32 cp1 p p v a b d e f (ev24 rt cl n bytes _ p 0 1 2 p0 p1 p2 (A0 _ _ _ _ _ _) (A1 _ _ _ _ _ _) (A2 _ _ _ _ _ _))) by (unfold cast; cbn [fits conv]; apply u32_id; lia). cbn [after].
    assert (EB : eval rt cl n (bits 16 (EBin BOr (EBin Shl (EIdx bytes (EBin Add (EVar "p") (int 3))) (int 8)) (EIdx bytes (EBin Add (EVar "p") (int 4))))) (fs p v (Some cp1) b d e f) = Val ((U32, Z.lor (Z.shiftl p3 8) p4), fs p v (Some cp1) b d e f)).
    { rewrite (ev_bits rt cl n _ _ I32 _ 16 (ev16 rt cl n bytes _ p 3 4 p3 p4 (A3 _ _ _ _ _ _) (A4 _ _ _ _ _ _))) by first [lia|auto]. rewrite Z.land_ones by lia. rewrite Z.mod_small by (change (2 ^ 16) with 65536; lia). reflexivity. }
    rewrite exec_seq, (store_range n _ U32 _ p p v _ b d e f EB) by (unfold cast; cbn [fits]; apply conv_i32; lia). cbn [after].
    pose proof (A0 None None None None None None) as (_ & PT & _). rewrite (add_p n 5) by (exact PT || lia). cbn [after].
    destruct (tail_exec n (p + 5) m cp1 (Z.lor (Z.shiftl p3 8) p4) v d e f ltac:(lia)) as (v' & T); [rewrite (skip_more p _ 5 P Q) by lia; exact F|]. exists (p + 5), v'. exact T.
  Qed.
End Fill.
