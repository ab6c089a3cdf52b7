(** The text of _tr46: the checks of the labels. *)
From Coq Require Import String.
From Verif Require Import Base PunyBase Puny Utf8 Uenv Idna Lookup SpecLookup CLang CLogic CLeaf CDecode CEncode CLabel CBidi CMapData CLookup SpecCPuny SpecCLookup CLookupMap CLookupName NonZero MapProofs.
Local Open Scope string_scope.
Local Open Scope list_scope.
Local Open Scope Z_scope.
Arguments calls : simpl never.
Arguments types : simpl never.
Arguments lookup_program : simpl never.
Arguments Z.land : simpl never.
Arguments Z.lor : simpl never.

Section Check.
  Variable U : uenv.
  Variable lab : list Z -> Z -> Z + list Z.
  Notation P := (lookup_program U lab).
  Notation rt := (types P). Notation cl := (calls P 1).
  Notation R := (runs rt cl).
  Notation mono := (lk_mono U lab).
  Variable flags : Z.
  Hypothesis HF : 0 <= flags.
  Variables n rest : list Z.
  Hypothesis WN : Forall (fun c => 0 < c < two32) n.
  Hypothesis LN : zlen n < 4611686018427387904.
  Definition t46 : Z := if opt_transitional flags then 1 else 0.
  Definition ks (err rc e s tf : option Z) : cst :=
    mkst [("flags", (I32, Some flags)); ("transitional", (I32, Some t46)); ("err", (I32, err)); ("rc", (I32, rc)); ("e", (U64, e)); ("s", (U64, s)); ("test_flags", (I32, tf))] [("domain_u32", (U32, map Some (n ++ 0 :: rest)))].
  Definition k_loop : stmt := Eval cbn in match nth 1 (flat (f_body c_tr46_labels)) SSkip with SSeq _ b => b | b => b end.
  Definition k_body : stmt := Eval cbn in match k_loop with SLoop _ _ b => b | b => b end.
  Definition k_find : stmt := Eval cbn in match k_body with SSeq a _ => a | b => b end.
  Definition k_test : expr := Eval cbn in match k_body with SSeq _ (SSeq (SIf c _ _) _) => c | _ => int 0 end.
  Definition k_ace : stmt := Eval cbn in match k_body with SSeq _ (SSeq (SIf _ a _) _) => a | b => b end.
  Definition k_plain : stmt := Eval cbn in match k_body with SSeq _ (SSeq (SIf _ _ a) _) => a | b => b end.
  Definition k_last : stmt := Eval cbn in match k_body with SSeq _ (SSeq _ a) => a | b => b end.
  Definition what (ace : bool) : Z := Z.lor (if negb ace && has flags IDN2_TRANSITIONAL then TR46_TRANSITIONAL_CHECK else TR46_NONTRANSITIONAL_CHECK) (if has flags IDN2_USE_STD3_ASCII_RULES then 0 else TEST_ALLOW_STD3_DISALLOWED).

  Section Label.
    (** The label we are at, what is before it, and what ends it. *)
    Variables (pre x : list Z) (c : Z) (post : list Z).
    Hypothesis SX : n ++ 0 :: rest = pre ++ x ++ c :: post.
    Hypothesis PX : zlen pre + zlen x <= zlen n.
    Hypothesis DX : ~ In 46 x.
    Hypothesis BX : Forall (fun c => 0 < c < two32) x.
    Hypothesis CX : c = 46 \/ c = 0.
    Lemma k_end : cell (map Some (n ++ 0 :: rest)) (zlen pre + zlen x) = Val c.
    Proof. rewrite <- zlen_app. apply (cell_at (n ++ 0 :: rest) (pre ++ x) c post). rewrite <- app_assoc. exact SX. Qed.
    Lemma find_runs : forall b a err rc s tf, x = a ++ b -> R k_find (ks err rc (Some (zlen pre + zlen a)) s tf) (Norm (ks err rc (Some (zlen pre + zlen x)) s tf)).
    Proof.
      pose proof (z0 _ pre). induction b as [|y b IH]; intros a err rc s tf E.
      - rewrite app_nil_r in E. subst a. apply (runs_loop_end rt cl mono _ _ _ _ (I32, 0)); [exists O; cc; rewrite k_end; cc; destruct CX as [Q|Q]; rewrite Q; cc; [rewrite k_end, Q; cc|]; reflexivity|reflexivity].
      - assert (Y : 0 < y < two32 /\ y <> 46). { split; [rewrite E in BX; apply Forall_app in BX; destruct BX as (_ & B); inversion B; assumption|]. intros ->. apply DX. rewrite E. apply in_app_iff. right. left. reflexivity. }
        assert (CE : cell (map Some (n ++ 0 :: rest)) (zlen pre + zlen a) = Val y). { rewrite <- zlen_app. apply (cell_at (n ++ 0 :: rest) (pre ++ a) y (b ++ c :: post)). rewrite SX, E, <- !app_assoc. reflexivity. }
        pose proof (f_equal zlen E) as Z1. rewrite zlen_app, zlen_cons in Z1. pose proof (z0 _ a). pose proof (z0 _ b).
        eapply (runs_loop_next rt cl mono).
        + exists O. cc. rewrite CE. cc. destruct (y =? 0) eqn:Y0; [lia|]. rewrite CE. cc. destruct (y =? 46) eqn:Y1; [lia|]. reflexivity.
        + discriminate.
        + eapply (runs_exp rt cl). exists O. cc. rewrite (u64_id (zlen pre + zlen a + 1)) by (unfold two64; lia). reflexivity.
        + apply runs_skip.
        + specialize (IH (a ++ [y]) err rc s tf ltac:(rewrite <- app_assoc; exact E)). rewrite zlen_app in IH. change (zlen [y]) with 1 in IH. rewrite Z.add_assoc in IH. exact IH.
    Qed.
    Definition kx (err rc : option Z) (tf : option Z) : cst := ks err rc (Some (zlen pre + zlen x)) (Some (zlen pre)) tf.
    Lemma k_diff : forall err rc tf, evals rt cl (diff (EVar "e") (EVar "s")) (kx err rc tf) (I64, zlen x) (kx err rc tf).
    Proof.
      intros. pose proof (z0 _ pre). pose proof (z0 _ x). exists O. unfold diff. cbn -[conv]. unfold cast. cbn -[conv]. replace (zlen pre + zlen x - zlen pre) with (zlen x) by lia. change (conv U64 (zlen x)) with (u64 (zlen x)).
      rewrite (u64_id (zlen x)) by (unfold two64; lia). rewrite conv_i64 by lia. reflexivity.
    Qed.
    Lemma k_nth : forall a y b err rc tf k, x = a ++ y :: b -> zlen a = k -> evals rt cl (EIdx "domain_u32" (EBin Add (EVar "s") (int k))) (kx err rc tf) (U32, y) (kx err rc tf).
    Proof.
      intros a y b err rc tf k E K. pose proof (z0 _ pre). pose proof (z0 _ a). pose proof (f_equal zlen E) as Z1. rewrite zlen_app, zlen_cons in Z1. pose proof (z0 _ b).
      exists O. cc. rewrite (u64_id k) by (unfold two64; lia). rewrite (u64_id (zlen pre + k)) by (unfold two64; lia). subst k. rewrite <- zlen_app. rewrite (cell_at (n ++ 0 :: rest) (pre ++ a) y (b ++ c :: post)); [reflexivity|]. rewrite SX, E, <- !app_assoc. reflexivity.
    Qed.
    Lemma k_is : forall a y b err rc tf k v, x = a ++ y :: b -> zlen a = k -> 0 <= v < two32 -> evals rt cl (EBin Eq (EIdx "domain_u32" (EBin Add (EVar "s") (int k))) (int v)) (kx err rc tf) (I32, if y =? v then 1 else 0) (kx err rc tf).
    Proof.
      intros a y b err rc tf k v E K V. destruct (k_nth a y b err rc tf k E K) as (m & N). exists m. cbn [eval] in *. rewrite N. cc. rewrite (u32_id v) by assumption. destruct (y =? v); reflexivity.
    Qed.
    Lemma and_b : forall a b st p q, evals rt cl a st (I32, if p : bool then 1 else 0) st -> (p = true -> evals rt cl b st (I32, if q : bool then 1 else 0) st) -> evals rt cl (EAnd a b) st (I32, if p && q then 1 else 0) st.
    Proof.
      intros a b st p q A B. pose proof (lk_and U lab a b st I32 (if p then 1 else 0) I32 (if q then 1 else 0) A) as Q. destruct p; cbn [negb Z.eqb andb] in *.
      - specialize (Q (fun _ => B eq_refl)). destruct q; exact Q.
      - apply Q. intros []. reflexivity.
    Qed.
    Lemma k_test_ev : forall err rc tf, evals rt cl k_test (kx err rc tf) (I32, if has_ace_prefix x then 1 else 0) (kx err rc tf).
    Proof.
      intros err rc tf.
      assert (D : evals rt cl (EBin Ge (diff (EVar "e") (EVar "s")) (int 4)) (kx err rc tf) (I32, if 4 <=? zlen x then 1 else 0) (kx err rc tf)).
      { destruct (k_diff err rc tf) as (m & E). exists m. cbn [eval] in *. rewrite E. cbn. unfold cast. cbn. destruct (4 <=? zlen x); reflexivity. }
      destruct (4 <=? zlen x) eqn:L.
      - destruct x as [|a [|b [|e [|d y]]]] eqn:EX; try discriminate L. cbn [has_ace_prefix]. rewrite <- EX in *.
        replace ((a =? 120) && (b =? 110) && (e =? 45) && (d =? 45)) with (true && (a =? 120) && (b =? 110) && (e =? 45) && (d =? 45)) by reflexivity.
        unfold k_test. repeat apply and_b; try exact D; intros _.
        + apply (k_is [] a (b :: e :: d :: y)); [exact EX|reflexivity|unfold two32; lia].
        + apply (k_is [a] b (e :: d :: y)); [exact EX|reflexivity|unfold two32; lia].
        + apply (k_is [a; b] e (d :: y)); [exact EX|reflexivity|unfold two32; lia].
        + apply (k_is [a; b; e] d y); [exact EX|reflexivity|unfold two32; lia].
      - assert (H : has_ace_prefix x = false). { destruct x as [|a [|b [|e [|d y]]]]; try reflexivity. rewrite !zlen_cons in L. pose proof (z0 _ y). lia. }
        rewrite H. unfold k_test.
        exact (and_b _ _ _ false true (and_b _ _ _ false true (and_b _ _ _ false true (and_b _ _ _ false true D ltac:(discriminate)) ltac:(discriminate)) ltac:(discriminate)) ltac:(discriminate)).
    Qed.
    Lemma k_tf : forall v err rc, 0 <= v -> R (SIf (ENot (EBin BAnd (EVar "flags") (int IDN2_USE_STD3_ASCII_RULES))) (SExp (EOp BOr "test_flags" (int TEST_ALLOW_STD3_DISALLOWED))) SSkip) (kx err rc (Some v))
      (Norm (kx err rc (Some (Z.lor v (if has flags IDN2_USE_STD3_ASCII_RULES then 0 else TEST_ALLOW_STD3_DISALLOWED))))).
    Proof.
      intros v err rc V. eapply (runs_if rt cl mono).
      - exists O. cc. replace (flags <? 0) with false by lia. cc. unfold has. instantiate (1 := kx err rc (Some v)). instantiate (1 := (I32, if negb (Z.land flags IDN2_USE_STD3_ASCII_RULES =? 0) then 0 else 1)). change IDN2_USE_STD3_ASCII_RULES with 32. destruct (Z.land flags 32 =? 0); reflexivity.
      - cbn [snd]. unfold has. destruct (Z.land flags IDN2_USE_STD3_ASCII_RULES =? 0); cbn [negb Z.eqb].
        + eapply (runs_exp rt cl). exists O. cc. replace (v <? 0) with false by lia. cc. reflexivity.
        + rewrite Z.lor_0_r. apply runs_skip.
    Qed.
    Lemma k_part : has_ace_prefix x = true -> part (map Some (n ++ 0 :: rest)) (zlen pre + 4) (zlen x - 4) = Val (skipn 4 x).
    Proof.
      intros H. destruct x as [|a [|b [|e [|d y]]]]; try discriminate H. rewrite SX. cbn [skipn]. rewrite !zlen_cons. replace (1 + (1 + (1 + (1 + zlen y))) - 4) with (zlen y) by lia.
      replace (zlen pre + 4) with (zlen (pre ++ [a; b; e; d])) by (rewrite zlen_app; reflexivity). replace (pre ++ (a :: b :: e :: d :: y) ++ c :: post) with ((pre ++ [a; b; e; d]) ++ y ++ c :: post) by (rewrite <- app_assoc; reflexivity). apply part_mid.
    Qed.
    Lemma k_u8 : forall m a b, has_ace_prefix x = true -> cl m "u32_to_u8" [(a, zlen pre + 4); (b, zlen x - 4)] [(U32, map Some (n ++ 0 :: rest))] = Val (match u32_to_u8 (skipn 4 x) with Some a => zlen a | None => -1 end).
    Proof.
      intros m a b H. change (cl m "u32_to_u8" [(a, zlen pre + 4); (b, zlen x - 4)] [(U32, map Some (n ++ 0 :: rest))]) with (on_part (fun s => Val (match u32_to_u8 s with Some a => zlen a | None => -1 end)) (zlen pre + 4) (zlen x - 4) (map Some (n ++ 0 :: rest))).
      unfold on_part. rewrite (k_part H). reflexivity.
    Qed.
    Lemma k_dec : forall m a b d, has_ace_prefix x = true -> u32_to_u8 (skipn 4 x) = Some d -> cl m "_idn2_punycode_decode_internal" [(a, zlen pre + 4); (b, zlen x - 4)] [(U32, map Some (n ++ 0 :: rest))] = code (puny_decode d LABEL_MAX LABEL_MAX).
    Proof.
      intros m a b d H E. change (cl m "_idn2_punycode_decode_internal" [(a, zlen pre + 4); (b, zlen x - 4)] [(U32, map Some (n ++ 0 :: rest))]) with (on_part (fun s => rbind (ace_of s) (fun a => code (puny_decode a LABEL_MAX LABEL_MAX))) (zlen pre + 4) (zlen x - 4) (map Some (n ++ 0 :: rest))).
      unfold on_part. rewrite (k_part H). cbn [rbind]. unfold ace_of. rewrite E. reflexivity.
    Qed.
    Lemma k_name : forall m t w a b d q, has_ace_prefix x = true -> u32_to_u8 (skipn 4 x) = Some d -> puny_decode d LABEL_MAX LABEL_MAX = Ok q ->
      cl m "_idn2_label_test name_u32" [(t, w); (a, zlen pre + 4); (b, zlen x - 4)] [(U32, map Some (n ++ 0 :: rest))] = code (label_test U w q).
    Proof.
      intros m t w a b d q H E F. change (cl m "_idn2_label_test name_u32" [(t, w); (a, zlen pre + 4); (b, zlen x - 4)] [(U32, map Some (n ++ 0 :: rest))]) with
        (on_part (fun s => rbind (ace_of s) (fun a => match puny_decode a LABEL_MAX LABEL_MAX with Ok d => code (label_test U w d) | _ => UB end)) (zlen pre + 4) (zlen x - 4) (map Some (n ++ 0 :: rest))).
      unfold on_part. rewrite (k_part H). cbn [rbind]. unfold ace_of. rewrite E. cbn [rbind]. rewrite F. reflexivity.
    Qed.
    Lemma k_lt : forall m t w a b, cl m "_idn2_label_test" [(t, w); (a, zlen pre); (b, zlen x)] [(U32, map Some (n ++ 0 :: rest))] = code (label_test U w x).
    Proof.
      intros. change (cl m "_idn2_label_test" [(t, w); (a, zlen pre); (b, zlen x)] [(U32, map Some (n ++ 0 :: rest))]) with (on_part (fun s => code (label_test U w s)) (zlen pre) (zlen x) (map Some (n ++ 0 :: rest))).
      unfold on_part. rewrite SX, part_mid. reflexivity.
    Qed.
    (** The arguments. *)
    Lemma k_s4 : forall err rc tf, 4 <= zlen x -> evals rt cl (EBin Add (EVar "s") (int 4)) (kx err rc tf) (U64, zlen pre + 4) (kx err rc tf).
    Proof. intros err rc tf H. pose proof (z0 _ pre). exists O. cc. rewrite (u64_id (zlen pre + 4)) by (unfold two64; lia). reflexivity. Qed.
    Lemma k_d4 : forall err rc tf, 4 <= zlen x -> evals rt cl (EBin Sub (diff (EVar "e") (EVar "s")) (int 4)) (kx err rc tf) (I64, zlen x - 4) (kx err rc tf).
    Proof.
      intros err rc tf H. pose proof (z0 _ pre). destruct (k_diff err rc tf) as (m & E). exists m. cbn [eval] in *. rewrite E. cbn. unfold cast. cbn. unfold arith. cbn.
      replace ((-9223372036854775808 <=? zlen x - 4) && (zlen x - 4 <=? 9223372036854775807)) with true by lia. reflexivity.
    Qed.
    Notation arr := ((U32, map Some (n ++ 0 :: rest)) : carr).
    Lemma k_call : forall f args vs err rc tf r, Forall2 (fun a v => evals rt cl a (kx err rc tf) v (kx err rc tf)) args vs -> (forall m, cl m f vs [arr] = Val r) ->
      evals rt cl (ECall f ["domain_u32"] args) (kx err rc tf) (rt f, r) (kx err rc tf).
    Proof.
      intros f args vs err rc tf r F C.
      assert (E : exists m, forall k, (m <= k)%nat -> (fix evs (l : list expr) (st : cst) : res (list (cty * Z) * cst) :=
                  match l with
                  | [] => Val ([], st)
                  | a :: l => rbind (eval rt cl k a st) (fun '(v, st) => rbind (evs l st) (fun '(vs, st) => Val (v :: vs, st)))
                  end) args (kx err rc tf) = Val (vs, kx err rc tf)).
      { clear C. induction F as [|a v args vs (m & A) F (m2 & IH)]; [exists O; reflexivity|]. exists (max m m2). intros k Q. rewrite (evals_at _ _ mono _ _ _ _ _ A) by lia. cbn [rbind]. rewrite IH by lia. reflexivity. }
      destruct E as (m & E). exists m. cbn [eval]. rewrite E by lia. cbn [rbind]. change (pick ["domain_u32"] (arrs (kx err rc tf))) with (Some [arr]). cbn beta iota. rewrite C. reflexivity.
    Qed.
    Lemma asg_rc : forall e err rc tf v, evals rt cl e (kx err rc tf) (I32, v) (kx err rc tf) -> evals rt cl (EAsg "rc" e) (kx err rc tf) (I32, v) (kx err (Some v) tf).
    Proof. intros e err rc tf v (m & E). exists m. cbn [eval]. rewrite E. reflexivity. Qed.
    Lemma k_err : forall err rc tf, R (SExp (EAsg "err" (EVar "rc"))) (kx err (Some rc) tf) (Norm (kx (Some rc) (Some rc) tf)).
    Proof. intros. eapply (runs_exp rt cl). exists O. cc. reflexivity. Qed.
    Lemma has_tr : has flags IDN2_TRANSITIONAL = opt_transitional flags. Proof. apply MapProofs.has_transitional. Qed.
    Definition new_err (t : out unit) (err : option Z) : option Z := match t with Fail r => Some r | _ => err end.
    Lemma k_verdict : forall e t err rc tf r, evals rt cl e (kx err rc tf) (I32, r) (kx err rc tf) -> code t = Val r -> nz t ->
      R (SIf (EAsg "rc" e) (SExp (EAsg "err" (EVar "rc"))) SSkip) (kx err rc tf) (Norm (kx (new_err t err) (Some r) tf)).
    Proof.
      intros e t err rc tf r E C N. eapply (runs_if rt cl mono); [apply asg_rc; exact E|]. cbn [snd]. destruct t as [u|q| |]; cbn [code new_err] in *; try discriminate C; assert (r = _) as -> by (apply (f_equal (fun a => match a with Val z => z | _ => 7 end)) in C; symmetry; exact C).
      - apply runs_skip.
      - specialize (N q eq_refl). unfold IDN2_OK in N. destruct (q =? 0) eqn:Q; [lia|]. apply k_err.
    Qed.
    Lemma ace_long : has_ace_prefix x = true -> 4 <= zlen x.
    Proof. intros H. destruct x as [|a [|b [|e [|d y]]]]; try discriminate H. rewrite !zlen_cons. pose proof (z0 _ y). lia. Qed.
    Lemma code_val : forall A (t : out A), match t with Undef | NoFuel => True | _ => exists r, code t = Val r end.
    Proof. intros A [a|r| |]; cbn; eauto. Qed.
    Lemma check_runs : forall err rc tf,
      match tr46_check1 U flags x with
      | Ok (Undef | NoFuel) | Undef | NoFuel => True
      | Fail r => exists rc' tf', R (SIf k_test k_ace k_plain) (kx err rc tf) (Ret (I32, r) (kx err rc' tf'))
      | Ok t => exists rc' tf', R (SIf k_test k_ace k_plain) (kx err rc tf) (Norm (kx (new_err t err) rc' tf'))
      end.
    Proof.
      intros err rc tf. unfold tr46_check1.
      assert (I : forall s o, R s (kx err rc tf) o -> s = (if has_ace_prefix x then k_ace else k_plain) -> R (SIf k_test k_ace k_plain) (kx err rc tf) o).
      { intros s o Q ->. eapply (runs_if rt cl mono); [apply k_test_ev|]. cbn [snd]. destruct (has_ace_prefix x); exact Q. }
      destruct (has_ace_prefix x) eqn:H.
      - pose proof (ace_long H) as L4. 
        assert (A2 : forall er r t, Forall2 (fun a v => evals rt cl a (kx er r t) v (kx er r t)) [EBin Add (EVar "s") (int 4); EBin Sub (diff (EVar "e") (EVar "s")) (int 4)] [(U64, zlen pre + 4); (I64, zlen x - 4)]).
        { intros. constructor; [apply k_s4; exact L4|]. constructor; [apply k_d4; exact L4|constructor]. }
        assert (E1 : evals rt cl (EBin Eq (ECall "u32_to_u8" ["domain_u32"] [EBin Add (EVar "s") (int 4); EBin Sub (diff (EVar "e") (EVar "s")) (int 4)]) (EBin Sub (int 0) (int 1))) (kx err rc tf)
          (I32, match u32_to_u8 (skipn 4 x) with Some _ => 0 | None => 1 end) (kx err rc tf)).
        { destruct (k_call "u32_to_u8" _ _ err rc tf _ (A2 err rc tf) (fun m => k_u8 m U64 I64 H)) as (m & E). exists m. remember (ECall "u32_to_u8" ["domain_u32"] [EBin Add (EVar "s") (int 4); EBin Sub (diff (EVar "e") (EVar "s")) (int 4)]) as ex. cbn [eval]. rewrite E.
          change (rt "u32_to_u8") with I64. generalize (u32_to_u8 (skipn 4 x)). intros [a|]; cbn; unfold cast; cbn; [|reflexivity]. pose proof (z0 _ a). replace (zlen a =? -1) with false by lia. reflexivity. }
        destruct (u32_to_u8 (skipn 4 x)) as [d|] eqn:E8; cbn [Utf8.conv bind].
        2: { exists rc, tf. eapply I; [|reflexivity]. unfold k_ace. eapply (runs_seq_stop rt cl); [|exact Logic.I]. eapply (runs_if rt cl mono); [exact E1|]. eapply (runs_ret rt cl). exists O. reflexivity. }
        assert (P1 : forall s o, R s (kx err rc tf) o -> R (SSeq (SIf (EBin Eq (ECall "u32_to_u8" ["domain_u32"] [EBin Add (EVar "s") (int 4); EBin Sub (diff (EVar "e") (EVar "s")) (int 4)]) (EBin Sub (int 0) (int 1))) (SReturn (int IDN2_ENCODING_ERROR)) SSkip) s) (kx err rc tf) o).
        { intros s o Q. eapply (runs_seq rt cl mono); [|exact Q]. eapply (runs_if rt cl mono); [exact E1|]. apply runs_skip. }
        pose proof (nz_decode d LABEL_MAX LABEL_MAX) as ND.
        assert (E2 : forall v, code (puny_decode d LABEL_MAX LABEL_MAX) = Val v -> R (SExp (EAsg "rc" (ECall "_idn2_punycode_decode_internal" ["domain_u32"] [EBin Add (EVar "s") (int 4); EBin Sub (diff (EVar "e") (EVar "s")) (int 4)]))) (kx err rc tf) (Norm (kx err (Some v) tf))).
        { intros v V. eapply (runs_exp rt cl). apply asg_rc. apply (k_call "_idn2_punycode_decode_internal" _ _ err rc tf v (A2 err rc tf)). intros m. rewrite (k_dec m _ _ d H E8). exact V. }
        destruct (puny_decode d LABEL_MAX LABEL_MAX) as [q|r| |] eqn:PD; cbn [bind]; [| |exact Logic.I|exact Logic.I].
        + assert (E3 : forall t v, label_test U (what true) q = t -> code t = Val v -> R k_ace (kx err rc tf) (Norm (kx (new_err t err) (Some v) (Some (what true))))).
          { intros t v LT CV. unfold k_ace. apply P1. eapply (runs_seq rt cl mono); [apply (E2 0); reflexivity|]. eapply (runs_seq rt cl mono). { eapply (runs_if rt cl mono); [exists O; cc; reflexivity|]. apply runs_skip. }
            eapply (runs_seq rt cl mono). { eapply (runs_exp rt cl). exists O. cc. reflexivity. }
            eapply (runs_seq rt cl mono). { apply k_tf. vm_compute. discriminate. }
            apply (k_verdict _ t); [|exact CV|rewrite <- LT; apply nz_label_test]. apply (k_call "_idn2_label_test name_u32" _ [(I32, what true); (U64, zlen pre + 4); (I64, zlen x - 4)] err _ _ v).
            - constructor; [exists O; reflexivity|]. apply A2.
            - intros m. rewrite (k_name m _ _ _ _ d q H E8 PD), LT. exact CV. }
          fold (what true). change (Z.lor TR46_NONTRANSITIONAL_CHECK (if has flags IDN2_USE_STD3_ASCII_RULES then 0 else TEST_ALLOW_STD3_DISALLOWED)) with (what true).
          destruct (label_test U (what true) q) as [u|r| |] eqn:LT; try exact Logic.I; do 2 eexists; (eapply I; [|reflexivity]); eapply E3; reflexivity.
        + specialize (ND r eq_refl). unfold IDN2_OK in ND. exists (Some r), tf. eapply I; [|reflexivity]. unfold k_ace. apply P1. eapply (runs_seq rt cl mono); [apply (E2 r); reflexivity|]. eapply (runs_seq_stop rt cl); [|exact Logic.I].
          eapply (runs_if rt cl mono); [exists O; cc; reflexivity|]. cbn [snd]. destruct (r =? 0) eqn:Q; [lia|]. eapply (runs_ret rt cl). exists O. cc. reflexivity.
      - assert (E3 : forall t v, label_test U (what false) x = t -> code t = Val v -> R k_plain (kx err rc tf) (Norm (kx (new_err t err) (Some v) (Some (what false))))).
        { intros t v LT CV. unfold k_plain.
          eapply (runs_seq rt cl mono). { eapply (runs_exp rt cl _ _ (I32, if has flags IDN2_TRANSITIONAL then TR46_TRANSITIONAL_CHECK else TR46_NONTRANSITIONAL_CHECK) (kx err rc (Some (if has flags IDN2_TRANSITIONAL then TR46_TRANSITIONAL_CHECK else TR46_NONTRANSITIONAL_CHECK)))). exists O. cc. unfold t46. rewrite has_tr. destruct (opt_transitional flags); reflexivity. }
          eapply (runs_seq rt cl mono). { apply k_tf. destruct (has flags IDN2_TRANSITIONAL); vm_compute; discriminate. }
          apply (k_verdict _ t); [|exact CV|rewrite <- LT; apply nz_label_test]. apply (k_call "_idn2_label_test" _ [(I32, what false); (U64, zlen pre); (I64, zlen x)] err _ _ v).
          - constructor; [exists O; reflexivity|]. constructor; [exists O; reflexivity|]. constructor; [apply k_diff|constructor].
          - intros m. rewrite (k_lt m), LT. exact CV. }
        change (Z.lor (if has flags IDN2_TRANSITIONAL then TR46_TRANSITIONAL_CHECK else TR46_NONTRANSITIONAL_CHECK) (if has flags IDN2_USE_STD3_ASCII_RULES then 0 else TEST_ALLOW_STD3_DISALLOWED)) with (what false).
        destruct (label_test U (what false) x) as [u|r| |] eqn:LT; try exact Logic.I; do 2 eexists; (eapply I; [|reflexivity]); eapply E3; reflexivity.
    Qed.
    Lemma last_runs : forall err rc tf, R k_last (kx err rc tf) (Norm (ks err rc (Some (zlen pre + zlen x + (if c =? 0 then 0 else 1))) (Some (zlen pre)) tf)).
    Proof.
      intros err rc tf. pose proof (z0 _ pre). pose proof (z0 _ x). unfold k_last. eapply (runs_if rt cl mono); [exists O; cc; rewrite k_end; cc; reflexivity|]. cbn [snd]. destruct (c =? 0).
      - rewrite Z.add_0_r. apply runs_skip.
      - eapply (runs_exp rt cl). exists O. cc. rewrite (u64_id (zlen pre + zlen x + 1)) by (unfold two64; lia). reflexivity.
    Qed.
    Lemma label_runs : forall err rc tf,
      match tr46_check1 U flags x with
      | Ok (Undef | NoFuel) | Undef | NoFuel => True
      | Fail r => exists rc' tf', R k_body (ks err rc (Some (zlen pre)) (Some (zlen pre)) tf) (Ret (I32, r) (kx err rc' tf'))
      | Ok t => exists rc' tf', R k_body (ks err rc (Some (zlen pre)) (Some (zlen pre)) tf) (Norm (ks (new_err t err) rc' (Some (zlen pre + zlen x + (if c =? 0 then 0 else 1))) (Some (zlen pre)) tf'))
      end.
    Proof.
      intros err rc tf. pose proof (find_runs x [] err rc (Some (zlen pre)) tf eq_refl) as F. change (zlen (@nil Z)) with 0 in F. rewrite Z.add_0_r in F. pose proof (check_runs err rc tf) as C.
      change k_body with (SSeq k_find (SSeq (SIf k_test k_ace k_plain) k_last)).
      assert (G : forall t, (exists rc' tf', R (SIf k_test k_ace k_plain) (kx err rc tf) (Norm (kx t rc' tf'))) ->
        exists rc' tf', R (SSeq k_find (SSeq (SIf k_test k_ace k_plain) k_last)) (ks err rc (Some (zlen pre)) (Some (zlen pre)) tf) (Norm (ks t rc' (Some (zlen pre + zlen x + (if c =? 0 then 0 else 1))) (Some (zlen pre)) tf'))).
      { intros t (rc' & tf' & Q). exists rc', tf'. eapply (runs_seq rt cl mono); [exact F|]. eapply (runs_seq rt cl mono); [exact Q|]. apply last_runs. }
      destruct (tr46_check1 U flags x) as [[u|r| |]|r| |]; try exact Logic.I; try (apply G; exact C).
      destruct C as (rc' & tf' & Q). exists rc', tf'. eapply (runs_seq rt cl mono); [exact F|]. eapply (runs_seq_stop rt cl); [exact Q|exact Logic.I].
    Qed.
  End Label.
  Lemma k_stop : forall err rc tf, R k_loop (ks err rc (Some (zlen n)) (Some (zlen n)) tf) (Norm (ks err rc (Some (zlen n)) (Some (zlen n)) tf)).
  Proof. intros. apply (runs_loop_end rt cl mono _ _ _ _ (U32, 0)); [|reflexivity]. exists O. cc. rewrite (cell_at (n ++ 0 :: rest) n 0 rest eq_refl). reflexivity. Qed.
  Definition kmem : list (string * carr) := [("domain_u32", (U32, map Some (n ++ 0 :: rest)))].
  Lemma checks_runs : forall ls pre err rc tf, ls <> [] -> Forall (fun l => ~ In 46 l) ls -> n = pre ++ join ls ->
    match tr46_checks U flags ls err with
    | Ok e => exists rc' e' s' tf', R k_loop (ks (Some err) rc (Some (zlen pre)) (Some (zlen pre)) tf) (Norm (ks (Some e) rc' e' s' tf'))
    | Fail r => exists st, R k_loop (ks (Some err) rc (Some (zlen pre)) (Some (zlen pre)) tf) (Ret (I32, r) st) /\ arrs st = kmem
    | _ => True
    end.
  Proof.
    induction ls as [|x ls IH]; intros pre err rc tf NE ND SP; [contradiction|]. inversion ND as [|? ? D1 D2]; subst. pose proof (f_equal zlen SP) as ZP. rewrite zlen_app in ZP. pose proof (z0 _ pre) as P0. pose proof (z0 _ x) as X0.
    set (c := match ls with [] => 0 | _ => 46 end). set (post := match ls with [] => rest | _ => join ls ++ 0 :: rest end).
    assert (SX : n ++ 0 :: rest = pre ++ x ++ c :: post). { rewrite SP at 1. rewrite <- app_assoc. f_equal. unfold c, post. destruct ls; cbn [join]; [reflexivity|]. rewrite <- !app_assoc. reflexivity. }
    assert (PX : zlen pre + zlen x <= zlen n). { rewrite ZP. destruct ls; cbn [join]; [lia|]. rewrite zlen_app. match goal with |- context [zlen (?a :: ?b)] => pose proof (z0 _ (a :: b)) end. lia. }
    assert (BX : Forall (fun c => 0 < c < two32) x). { apply Forall_forall. intros b Q. apply (proj1 (Forall_forall _ _) WN). rewrite SP. apply in_app_iff. right. destruct ls; cbn [join]; [exact Q|]. apply in_app_iff. left. exact Q. }
    assert (CX : c = 46 \/ c = 0) by (unfold c; destruct ls; tauto).
    assert (DONE : x = [] -> ls = [] -> zlen pre = zlen n) by (intros -> ->; rewrite ZP; cbn [join]; change (zlen (@nil Z)) with 0; lia).
    assert (CV : x <> [] \/ ls <> [] -> forall er r t, exists v, v <> 0 /\ evals rt cl (EIdx "domain_u32" (EVar "e")) (ks er r (Some (zlen pre)) (Some (zlen pre)) t) (U32, v) (ks er r (Some (zlen pre)) (Some (zlen pre)) t)).
    { intros N er r t. destruct x as [|y x'] eqn:EX.
      - exists c. split; [unfold c; destruct ls; [destruct N as [N|N]; contradiction|discriminate]|]. exists O. cc. rewrite (cell_at (n ++ 0 :: rest) pre c post); [reflexivity|exact SX].
      - exists y. inversion BX; subst. split; [lia|]. exists O. cc. rewrite (cell_at (n ++ 0 :: rest) pre y (x' ++ c :: post)); [reflexivity|exact SX]. }
    assert (MD : tr46_checks U flags (x :: ls) err = if match x, ls with [], [] => true | _, _ => false end then Ok err else
      bind (tr46_check1 U flags x) (fun t => match t with Ok _ => tr46_checks U flags ls err | Fail rc => tr46_checks U flags ls rc | Undef => Undef | NoFuel => NoFuel end)) by (cbn [tr46_checks]; destruct x, ls; reflexivity).
    rewrite MD. destruct (match x, ls with [], [] => true | _, _ => false end) eqn:DN.
    - assert (x = [] /\ ls = []) as (E1 & E2) by (destruct x, ls; try discriminate DN; auto). rewrite (DONE E1 E2). do 4 eexists. apply k_stop.
    - assert (N : x <> [] \/ ls <> []) by (destruct x; [destruct ls; [discriminate DN|right; discriminate]|left; discriminate]). specialize (CV N).
      pose proof (label_runs pre x c post SX PX D1 BX CX (Some err) rc tf) as LR. destruct (CV (Some err) rc tf) as (v & V0 & VE).
      assert (NX : forall e2, (exists rc' tf', R k_body (ks (Some err) rc (Some (zlen pre)) (Some (zlen pre)) tf) (Norm (ks (Some e2) rc' (Some (zlen pre + zlen x + (if c =? 0 then 0 else 1))) (Some (zlen pre)) tf'))) ->
        match tr46_checks U flags ls e2 with
        | Ok e => exists rc' e' s' tf', R k_loop (ks (Some err) rc (Some (zlen pre)) (Some (zlen pre)) tf) (Norm (ks (Some e) rc' e' s' tf'))
        | Fail r => exists st, R k_loop (ks (Some err) rc (Some (zlen pre)) (Some (zlen pre)) tf) (Ret (I32, r) st) /\ arrs st = kmem
        | _ => True
        end).
      { intros e2 (rc' & tf' & Q). set (p2 := zlen pre + zlen x + (if c =? 0 then 0 else 1)) in *.
        assert (TR : forall o, R k_loop (ks (Some e2) rc' (Some p2) (Some p2) tf') o -> R k_loop (ks (Some err) rc (Some (zlen pre)) (Some (zlen pre)) tf) o).
        { intros o G. eapply (runs_loop_next rt cl mono); [exact VE|exact V0|exact Q| |exact G]. eapply (runs_exp rt cl). exists O. cc. reflexivity. }
        destruct ls as [|y ls].
        - cbn [tr46_checks]. assert (p2 = zlen n) as EP by (unfold p2, c; cbn [Z.eqb]; rewrite ZP; cbn [join]; lia). do 4 eexists. apply TR. rewrite EP. apply k_stop.
        - assert (EP : p2 = zlen (pre ++ x ++ [46])) by (unfold p2, c; cbn [Z.eqb]; rewrite !zlen_app; change (zlen [46]) with 1; lia).
          specialize (IH (pre ++ x ++ [46]) e2 rc' tf' ltac:(discriminate) D2 ltac:(rewrite SP, <- !app_assoc; reflexivity)). rewrite <- EP in IH.
          destruct (tr46_checks U flags (y :: ls) e2) as [e|r| |]; [| |exact Logic.I|exact Logic.I].
          + destruct IH as (r1 & e1 & s1 & t1 & G). do 4 eexists. apply TR. exact G.
          + destruct IH as (st & G & H). exists st. split; [apply TR; exact G|exact H]. }
      destruct (tr46_check1 U flags x) as [[u|r| |]|r| |]; cbn [bind]; try exact Logic.I.
      + apply NX. exact LR.
      + apply NX. exact LR.
      + destruct LR as (rc' & tf' & Q). eexists. split; [exact (runs_loop_stop rt cl mono _ _ _ _ _ _ (Ret (I32, r) _) VE V0 Q Logic.I)|reflexivity].
  Qed.
  Lemma labels_body : match tr46_checks U flags (split_dots n) 0 with
    | Ok r | Fail r => exists st, R (f_body c_tr46_labels) (ks None None None None None) (Ret (I32, r) st) /\ arrs st = kmem
    | _ => True
    end.
  Proof.
    pose proof (proj2 (dotted_iff (split_dots n) n) eq_refl) as (NE & ND & SJ). pose proof (checks_runs (split_dots n) [] 0 None None NE ND SJ) as C. change (zlen (@nil Z)) with 0 in C.
    assert (PR : forall o, R (SSeq k_loop (SReturn (EVar "err"))) (ks (Some 0) None (Some 0) (Some 0) None) o -> R (f_body c_tr46_labels) (ks None None None None None) o).
    { intros o Q. change (f_body c_tr46_labels) with (SSeq (SExp (EAsg "err" (int 0))) (SSeq (SSeq (SExp (EAsg "e" (EAsg "s" (int 0)))) k_loop) (SReturn (EVar "err")))).
      eapply (runs_seq rt cl mono). { eapply (runs_exp rt cl). exists O. cc. reflexivity. } eapply (runs_init rt cl mono). { eapply (runs_exp rt cl). exists O. cc. reflexivity. } exact Q. }
    destruct (tr46_checks U flags (split_dots n) 0) as [e|r| |]; try exact Logic.I.
    - destruct C as (rc' & e' & s' & tf' & G). eexists. split; [apply PR; eapply (runs_seq rt cl mono); [exact G|]; eapply (runs_ret rt cl); exists O; cc; reflexivity|reflexivity].
    - destruct C as (st & G & H). exists st. split; [|exact H]. apply PR. eapply (runs_seq_stop rt cl); [exact G|exact Logic.I].
  Qed.
End Check.
