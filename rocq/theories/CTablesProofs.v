(** The text of lib/tables.c and lib/tr46map.c computes what Tables.v and Tr46Map.v say. *)
From Coq Require Import String.
From Verif Require Import Base PunyBase DataTypes Bsearch BsearchProofs Tables TablesProofs Gentr46 Gentr46Proofs Tr46Map Tr46Valid CLang CLogic CLeaf CDecode CEncode CBidi CTables SpecCPuny SpecCTables CSearch.
Local Open Scope string_scope.
Local Open Scope list_scope.
Local Open Scope Z_scope.

Lemma cell_map : forall A (f : A -> Z) (t : list A) i x, nth_error t (Z.to_nat i) = Some x -> 0 <= i < zlen t -> cell (map (fun e => Some (f e)) t) i = Val (f x).
Proof.
  intros A f t i x E H. unfold cell. rewrite zlen_map. destruct ((0 <=? i) && (i <? zlen t)) eqn:Q; [|lia]. rewrite (nth_error_nth _ _ None (map_nth_error (fun e => Some (f e)) (Z.to_nat i) t E)). reflexivity.
Qed.
Lemma compare_text : forall (t : list idna_entry) k i x, nth_error t (Z.to_nat i) = Some x -> 0 <= i < zlen t ->
  compar c_compare [(U64, i)] [(U32, [Some k]); fresh U32; fresh I32; (U32, map (fun e => Some (ie_start e)) t); (U32, map (fun e => Some (ie_end e)) t); (I32, map (fun e => Some (prop_num (ie_state e))) t)]
  = Val (if k <? ie_start x then -1 else if ie_end x <? k then 1 else 0).
Proof.
  intros t k i x E H. unfold compar, calls. cc. change (cell [Some k] 0) with (Val k). cc. rewrite (cell_map _ ie_start t i x E H). cc. destruct (k <? ie_start x); cc; [reflexivity|].
  change (cell [Some k] 0) with (Val k). cc. rewrite (cell_map _ ie_end t i x E H). cc. destruct (ie_end x <? k); reflexivity.
Qed.
Lemma compare_nfcqc_text : forall (t : list nfcqc) ch k i x, nth_error t (Z.to_nat i) = Some x -> 0 <= i < zlen t ->
  compar c_compare_nfcqc_map [(U32, k); (U64, i)] [(U32, map (fun e => Some (nq1 e)) t); (U32, map (fun e => Some (nq2 e)) t); (ch, map (fun e => Some (nq_check e)) t)]
  = Val (if k <? nq1 x then -1 else if nq2 x <? k then 1 else 0).
Proof.
  intros t ch k i x E H. unfold compar, calls. cc. rewrite (cell_map _ nq1 t i x E H). cc. destruct (k <? nq1 x); cc; [reflexivity|].
  rewrite (cell_map _ nq2 t i x E H). cc. destruct (nq2 x <? k); reflexivity.
Qed.

Arguments calls : simpl never.
Arguments types : simpl never.
Arguments table_program : simpl never.
Arguments compar : simpl never.
Section Property.
  Variables (bs : bsearch_fun) (size : Z).
  Hypothesis C11 : c11_bsearch bs.
  Notation P := (table_program bs size).
  Lemma lib_compare : forall d n t1 k t2 m s e p, calls P d n "bsearch _compare" [(t1, k); (t2, m)] [s; e; p] =
    bs (fun i => compar c_compare [(U64, i)] [(U32, [Some k]); fresh U32; fresh I32; s; e; p]) m.
  Proof. intros d n. destruct d; reflexivity. Qed.
  Lemma lib_nfcqc : forall d n t1 k t2 m a b q, calls P d n "bsearch _compare_nfcqc_map" [(t1, k); (t2, m)] [a; b; q] =
    bs (fun i => compar c_compare_nfcqc_map [(U32, k); (U64, i)] [a; b; q]) m.
  Proof. intros d n. destruct d; reflexivity. Qed.
  Lemma ty_compare : types P "bsearch _compare" = I64. Proof. reflexivity. Qed.
  Lemma ty_nfcqc : types P "bsearch _compare_nfcqc_map" = I64. Proof. reflexivity. Qed.
  Lemma ty_property : types P "property" = I32. Proof. reflexivity. Qed.
  Definition pstate (t : list idna_entry) (c : Z) (r k : option Z) : cst := mkst [("cp", (U32, Some c)); ("result", (I64, r)); ("key.start", (U32, k))] (idna_arrays t).
  Lemma property_exec : forall t b c, sorted_from ie_start ie_end b t = true -> size = zlen t -> forall d n, exists st, arrs st = idna_arrays t /\
    exec (types P) (calls P d) n (f_body (c_property size)) (pstate t c None None) = Ret (I32, prop_num (match find (covers ie_start ie_end c) t with Some e => ie_state e | None => UNASSIGNED end)) st.
  Proof.
    intros t b c S E d n. cbn. rewrite lib_compare, ty_compare. cbn.
    pose proof (bs_intervals ie_start ie_end bs t b c _ C11 S (fun i x => compare_text t c i x)) as B. rewrite E.
    destruct (find (covers ie_start ie_end c) t) as [x|].
    - destruct B as (i & Hi & B & NE). rewrite B. cc. destruct (i =? -1) eqn:Q; [lia|]. cbn. rewrite (cell_map _ (fun e => prop_num (ie_state e)) t i x NE Hi). cc. eexists. split; [|reflexivity]. reflexivity.
    - rewrite B. cc. eexists. split; [|reflexivity]. reflexivity.
  Qed.
  Lemma is_exec : forall t b c q, sorted_from ie_start ie_end b t = true -> size = zlen t -> 0 <= c < two32 ->
    t_returns bs size (c_is q) [(U32, c)] (idna_arrays t) (if prop_num (match find (covers ie_start ie_end c) t with Some e => ie_state e | None => UNASSIGNED end) =? prop_num q then 1 else 0) (idna_arrays t).
  Proof.
    intros t b c q S E H. exists O. intros n _. unfold run. cbn [exec c_is f_body declare f_params f_locals combine map app eval rbind obind fst snd]. cbn. rewrite ty_property.
    assert (X : calls P 1 n "property" [(U32, c)] [(U32, map (fun e => Some (ie_start e)) t); (U32, map (fun e => Some (ie_end e)) t); (I32, map (fun e => Some (prop_num (ie_state e))) t)]
      = Val (prop_num (match find (covers ie_start ie_end c) t with Some e => ie_state e | None => UNASSIGNED end))).
    { destruct (property_exec t b c S E 0%nat n) as (st & _ & X).
      change (calls P 1 n "property" [(U32, c)] [(U32, map (fun e => Some (ie_start e)) t); (U32, map (fun e => Some (ie_end e)) t); (I32, map (fun e => Some (prop_num (ie_state e))) t)])
        with (match exec (types P) (calls P 0) n (f_body (c_property size)) (pstate t c None None) with Ret v _ => Val (cast (fst v) I32 (snd v)) | Out => Fuel | _ => UB end).
      rewrite X. reflexivity. }
    rewrite X. cc. destruct (prop_num _ =? prop_num q); reflexivity.
  Qed.
  Lemma nfcqc_exec : forall ch t b c, sorted_from nq1 nq2 b t = true -> 
    exists r, t_returns bs size (c_get_nfcqc_map (zlen t)) [(U32, c)] (nfcqc_arrays ch t) r (nfcqc_arrays ch t) /\
    match find (covers nq1 nq2 c) t with Some q => 0 <= r < zlen t /\ nth_error t (Z.to_nat r) = Some q | None => r = -1 end.
  Proof.
    intros ch t b c S. pose proof (bs_intervals nq1 nq2 bs t b c _ C11 S (fun i x => compare_nfcqc_text t ch c i x)) as B.
    destruct (find (covers nq1 nq2 c) t) as [x|].
    - destruct B as (i & Hi & B & NE). exists i. split; [|auto]. exists O. intros n _. unfold run. cbn. rewrite lib_nfcqc, ty_nfcqc, B. reflexivity.
    - exists (-1). split; [|auto]. exists O. intros n _. unfold run. cbn. rewrite lib_nfcqc, ty_nfcqc, B. reflexivity.
  Qed.
End Property.

(** Records of bytes. *)
Lemma lor_bound : forall a b k, 0 <= a < 2 ^ k -> 0 <= b < 2 ^ k -> 0 < k -> 0 <= Z.lor a b < 2 ^ k.
Proof.
  intros a b k A B K. assert (N : 0 <= Z.lor a b) by (apply Z.lor_nonneg; lia). split; [exact N|]. destruct (Z.eq_dec (Z.lor a b) 0) as [->|NZ]; [lia|].
  apply Z.log2_lt_pow2; [lia|]. rewrite Z.log2_lor by lia. apply Z.max_lub_lt; (destruct (Z.eq_dec a 0) as [->|]; destruct (Z.eq_dec b 0) as [->|]; try (cbn; lia); apply Z.log2_lt_pow2; lia).
Qed.
Lemma shl8 : forall a, 0 <= a <= 255 -> 0 <= Z.shiftl a 8 < 2 ^ 16. Proof. intros a H. rewrite Z.shiftl_mul_pow2 by lia. change (2 ^ 8) with 256. change (2 ^ 16) with 65536. lia. Qed.
Lemma shl16 : forall a, 0 <= a <= 255 -> 0 <= Z.shiftl a 16 < 2 ^ 24. Proof. intros a H. rewrite Z.shiftl_mul_pow2 by lia. change (2 ^ 16) with 65536. change (2 ^ 24) with 16777216. lia. Qed.
Lemma word16 : forall a b, 0 <= a <= 255 -> 0 <= b <= 255 -> 0 <= Z.lor (Z.shiftl a 8) b < 65536.
Proof. intros a b A B. apply (lor_bound _ _ 16); [apply shl8; exact A| |]; cbn; lia. Qed.
Lemma word24 : forall a b c, 0 <= a <= 255 -> 0 <= b <= 255 -> 0 <= c <= 255 -> 0 <= Z.lor (Z.lor (Z.shiftl a 16) (Z.shiftl b 8)) c < 16777216.
Proof. intros a b c A B C. apply (lor_bound _ _ 24); [apply lor_bound; [apply shl16; exact A| |lia]| |lia]. - pose proof (shl8 b B). cbn in *. lia. - cbn. lia. Qed.
Lemma conv_i32 : forall z, 0 <= z < 2147483648 -> conv I32 z = z. Proof. intros z H. cbn [conv]. rewrite u32_id by lia. lia. Qed.
Lemma land_mask : forall z w, 0 <= w -> 0 <= Z.land z (Z.ones w) < 2 ^ w. Proof. intros z w W. rewrite Z.land_ones by exact W. apply Z.mod_pos_bound. apply Z.pow_pos_nonneg; lia. Qed.
Section Fill.
  Variables (rt : string -> cty) (cl : nat -> string -> list (cty * Z) -> list carr -> res Z).
  Definition top : Z := 4611686018427387904.
  Definition byte_at (a : string) (st : cst) (p i x : Z) : Prop :=
    0 <= x <= 255 /\ 0 <= p < top /\ 0 <= i < 8 /\ assoc "p" (vars st) = Some (I64, Some p) /\ exists l, assoc a (arrs st) = Some (U8, l) /\ cell l (p + i) = Val x.
  Lemma eval_bin : forall n o a b st, eval rt cl n (EBin o a b) st = rbind (eval rt cl n a st) (fun '(x, st) => rbind (eval rt cl n b st) (fun '(y, st) => rbind (bin o x y) (fun v => Val (v, st)))).
  Proof. reflexivity. Qed.
  Lemma ev_byte : forall n a st p i x, byte_at a st p i x -> eval rt cl n (EIdx a (EBin Add (EVar "p") (int i))) st = Val ((U8, x), st).
  Proof.
    intros n a st p i x (X & PP & II & AP & l & AL & C). unfold top in PP. cbn. unfold get_var. rewrite AP. cc. unfold arith. cbn.
    destruct ((-9223372036854775808 <=? p + i) && (p + i <=? 9223372036854775807)) eqn:Q; [|lia]. cbn. rewrite AL, C. reflexivity.
  Qed.
  Lemma ev_shift : forall n a st p i x k, byte_at a st p i x -> k = 8 \/ k = 16 -> eval rt cl n (EBin Shl (EIdx a (EBin Add (EVar "p") (int i))) (int k)) st = Val ((I32, Z.shiftl x k), st).
  Proof.
    intros n a st p i x k B K. pose proof B as ((X & _) & _). change (eval rt cl n (EBin Shl (EIdx a (EBin Add (EVar "p") (int i))) (int k)) st) with
      (rbind (eval rt cl n (EIdx a (EBin Add (EVar "p") (int i))) st) (fun '(x, st) => rbind (bin Shl x (I32, k)) (fun v => Val (v, st)))).
    rewrite (ev_byte n a st p i x B). cbn [rbind]. unfold bin. cbn [fst snd promote size]. destruct ((k <? 0) || (8 * 4 <=? k) || (x <? 0)) eqn:Q; [destruct K; lia|]. unfold arith. cbn [is_signed lo hi].
    pose proof B as (R & _). pose proof (shl8 x R). pose proof (shl16 x R). change (2 ^ 16) with 65536 in *. change (2 ^ 24) with 16777216 in *. destruct ((-2147483648 <=? Z.shiftl x k) && (Z.shiftl x k <=? 2147483647)) eqn:Q2; [reflexivity|]. destruct K as [-> | ->]; lia.
  Qed.
  Lemma bin_or : forall t x y, t = I32 \/ t = U8 -> 0 <= x -> 0 <= y -> bin BOr (I32, x) (t, y) = Val (I32, Z.lor x y).
  Proof. intros t x y T X Y. unfold bin. cbn [fst snd]. assert (E : cast t (common I32 t) y = y) by (destruct T as [-> | ->]; reflexivity). rewrite E. replace (common I32 t) with I32 by (destruct T as [-> | ->]; reflexivity). unfold cast. cbn [fits]. destruct ((x <? 0) || (y <? 0)) eqn:Q; [lia|]. reflexivity. Qed.
  Lemma ev16 : forall n a st p i j x y, byte_at a st p i x -> byte_at a st p j y ->
    eval rt cl n (EBin BOr (EBin Shl (EIdx a (EBin Add (EVar "p") (int i))) (int 8)) (EIdx a (EBin Add (EVar "p") (int j)))) st = Val ((I32, Z.lor (Z.shiftl x 8) y), st).
  Proof.
    intros n a st p i j x y B D. pose proof (proj1 B) as X. pose proof (proj1 D) as Y. rewrite eval_bin.
    rewrite (ev_shift n a st p i x 8 B) by auto. cbn [rbind]. rewrite (ev_byte n a st p j y D). cbn [rbind]. pose proof (shl8 x X). rewrite bin_or by first [lia|auto]. reflexivity.
  Qed.
  Lemma ev24 : forall n a st p i j k x y z, byte_at a st p i x -> byte_at a st p j y -> byte_at a st p k z ->
    eval rt cl n (EBin BOr (EBin BOr (EBin Shl (EIdx a (EBin Add (EVar "p") (int i))) (int 16)) (EBin Shl (EIdx a (EBin Add (EVar "p") (int j))) (int 8))) (EIdx a (EBin Add (EVar "p") (int k)))) st
    = Val ((I32, Z.lor (Z.lor (Z.shiftl x 16) (Z.shiftl y 8)) z), st).
  Proof.
    intros n a st p i j k x y z B D E. pose proof (proj1 B) as X. pose proof (proj1 D) as Y. pose proof (proj1 E) as W. rewrite eval_bin. rewrite (eval_bin n BOr (EBin Shl _ _)).
    rewrite (ev_shift n a st p i x 16 B) by auto. cbn [rbind]. rewrite (ev_shift n a st p j y 8 D) by auto. cbn [rbind]. pose proof (shl16 x X). pose proof (shl8 y Y). rewrite bin_or by first [lia|auto]. cbn [rbind].
    rewrite (ev_byte n a st p k z E). cbn [rbind]. rewrite bin_or by first [lia|apply Z.lor_nonneg; lia|auto]. reflexivity.
  Qed.
  (** What is stored in a member of [w] bits. *)
  Lemma ev_bits : forall n e st t z w, eval rt cl n e st = Val ((t, z), st) -> t = I32 \/ t = U32 \/ t = U8 -> 0 <= z < 2147483648 -> 0 <= w <= 16 -> eval rt cl n (bits w e) st = Val ((U32, Z.land z (Z.ones w)), st).
  Proof.
    intros n e st t z w E T H W. unfold bits. rewrite eval_bin.
    rewrite E. cbn [rbind eval]. assert (O : 0 <= Z.ones w < 4294967296). { rewrite Z.ones_equiv. assert (0 < 2 ^ w) by (apply Z.pow_pos_nonneg; lia). assert (2 ^ w <= 2 ^ 16) by (apply Z.pow_le_mono_r; lia). change (2 ^ 16) with 65536 in *. lia. }
    unfold bin. replace (common (fst (t, z)) (fst (U32, Z.ones w))) with U32 by (destruct T as [-> |[-> | ->]]; reflexivity). cbn [fst snd]. unfold cast. cbn [fits].
    replace (if fits t U32 then z else conv U32 z) with z by (destruct T as [-> |[-> | ->]]; cbn [fits conv]; try reflexivity; rewrite u32_id by lia; reflexivity).
    destruct ((z <? 0) || (Z.ones w <? 0)) eqn:Q; [lia|]. reflexivity.
  Qed.
End Fill.
