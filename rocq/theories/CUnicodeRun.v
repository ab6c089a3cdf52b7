(** The text of idn2_to_unicode_8z4z: what it does. *)
From Coq Require Import String.
From Verif Require Import Base PunyBase Puny Utf8 Utf8Proofs Uenv Idna Lookup SpecLookup Api CLang CLogic CLeaf CDecode CEncode CLabel CBidi CMapData CLookup CUnicode SpecCPuny SpecCUnicode CLookupMap CLookupName CLabelFun NonZero CostPuny CostLabel PunyComplete MapProofs.
Local Open Scope string_scope.
Local Open Scope list_scope.
Local Open Scope Z_scope.
Arguments calls : simpl never.
Arguments types : simpl never.
Arguments unicode_program : simpl never.

(** Expressions that leave the state alone. *)
Section Pure.
  Variables (rt : string -> cty) (cl : nat -> string -> list (cty * Z) -> list carr -> res Z).
  Hypothesis mono : forall n m f vs a, (n <= m)%nat -> cl n f vs a <> Fuel -> cl m f vs a = cl n f vs a.
  Variable st : cst.
  Notation E e v := (evals rt cl e st v st).
  Lemma ev_and : forall a b (p q : bool), E a (I32, if p then 1 else 0) -> (p = true -> E b (I32, if q then 1 else 0)) -> E (EAnd a b) (I32, if p && q then 1 else 0).
  Proof.
    intros a b p q (n & A) B. destruct p; cbn [andb].
    - destruct (B eq_refl) as (m & C). exists (max n m). cbn [eval]. rewrite (evals_at _ _ mono _ _ _ _ _ A) by lia. cbn. rewrite (evals_at _ _ mono _ _ _ _ _ C) by lia. cbn. destruct q; reflexivity.
    - exists n. cbn [eval]. rewrite A. reflexivity.
  Qed.
  Lemma ev_or : forall a b (p q : bool), E a (I32, if p then 1 else 0) -> (p = false -> E b (I32, if q then 1 else 0)) -> E (EOr a b) (I32, if p || q then 1 else 0).
  Proof.
    intros a b p q (n & A) B. destruct p; cbn [orb].
    - exists n. cbn [eval]. rewrite A. reflexivity.
    - destruct (B eq_refl) as (m & C). exists (max n m). cbn [eval]. rewrite (evals_at _ _ mono _ _ _ _ _ A) by lia. cbn. rewrite (evals_at _ _ mono _ _ _ _ _ C) by lia. cbn. destruct q; reflexivity.
  Qed.
  Lemma ev_bin : forall o a b x y v, E a x -> E b y -> bin o x y = Val v -> E (EBin o a b) v.
  Proof. intros o a b x y v (n & A) (m & B) H. exists (max n m). cbn [eval]. rewrite (evals_at _ _ mono _ _ _ _ _ A) by lia. cbn [rbind]. rewrite (evals_at _ _ mono _ _ _ _ _ B) by lia. cbn [rbind]. rewrite H. reflexivity. Qed.
  Lemma ev_idx : forall a i t l k z, assoc a (arrs st) = Some (t, l) -> E i k -> cell l (snd k) = Val z -> E (EIdx a i) (t, z).
  Proof. intros a i t l k z A (n & I) C. exists n. cbn [eval]. rewrite I. cbn [rbind]. rewrite A. cbn beta iota. rewrite C. reflexivity. Qed.
  Lemma ev_call : forall f names args vs r ms, Forall2 (fun a v => E a v) args vs -> pick names (arrs st) = Some ms -> (forall n, cl n f vs ms = Val r) -> E (ECall f names args) (rt f, r).
  Proof.
    intros f names args vs r ms F P C.
    assert (X : exists m, forall k, (m <= k)%nat -> (fix evs (l : list expr) (st : cst) : res (list (cty * Z) * cst) :=
                match l with
                | [] => Val ([], st)
                | a :: l => rbind (eval rt cl k a st) (fun '(v, st) => rbind (evs l st) (fun '(vs, st) => Val (v :: vs, st)))
                end) args st = Val (vs, st)).
    { clear C. induction F as [|a v args vs (m & A) F (m2 & IH)]; [exists O; reflexivity|]. exists (max m m2). intros k Q. rewrite (evals_at _ _ mono _ _ _ _ _ A) by lia. cbn [rbind]. rewrite IH by lia. reflexivity. }
    destruct X as (m & X). exists m. cbn [eval]. rewrite X by lia. cbn [rbind]. rewrite P. cbn beta iota. rewrite C. reflexivity.
  Qed.
  Lemma run_store : forall a i e t l j v l', assoc a (arrs st) = Some (t, l) -> E i j -> E e v -> set_cell l (snd j) (cast (fst v) t (snd v)) = Val l' ->
    runs rt cl (SStore a i e) st (Norm (mkst (vars st) (update a (fun _ => (t, l')) (arrs st)))).
  Proof.
    intros a i e t l j v l' A (n & I) (m & B) H. exists (max n m). split; [|discriminate]. cbn [exec]. rewrite (evals_at _ _ mono _ _ _ _ _ I) by lia. cbn [obind]. rewrite (evals_at _ _ mono _ _ _ _ _ B) by lia. cbn [obind]. rewrite A. cbn beta iota. rewrite H. reflexivity.
  Qed.
  Lemma run_set : forall x e v u, E e v -> set_var x v st = Val u -> runs rt cl (SExp (EAsg x e)) st (Norm (snd u)).
  Proof. intros x e v (w & st') (n & B) H. exists n. split; [|discriminate]. cbn [exec eval]. rewrite B. cbn [rbind]. rewrite H. reflexivity. Qed.
End Pure.

Lemma conv_eqb : forall ch b v, char_type ch -> 0 <= b <= 255 -> 0 <= v < 128 -> (conv ch b =? v) = (b =? v).
Proof.
  intros ch b v [-> | ->] B V; cbn [conv].
  - destruct (Z_lt_ge_dec b 128); [rewrite (Z.mod_small (b + 128)) by lia; f_equal; lia|]. replace ((b + 128) mod 256) with (b - 128) by (apply Z.mod_unique_pos with 1; lia). destruct (b =? v) eqn:Q; lia.
  - rewrite Z.mod_small by lia. reflexivity.
Qed.
Lemma conv_back : forall ch b, char_type ch -> 0 <= b <= 255 -> conv U8 (conv ch b) = b.
Proof.
  intros ch b [-> | ->] B; cbn [conv].
  - destruct (Z_lt_ge_dec b 128); [rewrite (Z.mod_small (b + 128)) by lia; rewrite Z.mod_small by lia; lia|]. replace ((b + 128) mod 256) with (b - 128) by (apply Z.mod_unique_pos with 1; lia). symmetry. apply Z.mod_unique_pos with (-1); lia.
  - rewrite Z.mod_mod by lia. apply Z.mod_small. lia.
Qed.
Lemma as_u8_conv : forall ch x, char_type ch -> Forall (fun b => 0 <= b <= 255) x -> as_u8 (map (conv ch) x) = x.
Proof. intros ch x CH. induction 1 as [|b x B _ IH]; [reflexivity|]. unfold as_u8 in *. cbn [map]. rewrite IH, conv_back by assumption. reflexivity. Qed.
Lemma conv_0 : forall ch, char_type ch -> conv ch 0 = 0. Proof. intros ch [-> | ->]; reflexivity. Qed.

Lemma cell_front : forall (l : list Z) (r : list (option Z)) k b, cell (map Some l) k = Val b -> cell (map Some l ++ r) k = Val b.
Proof.
  intros l r k b. unfold cell. rewrite zlen_app, zlen_map. pose proof (z0 _ r). destruct ((0 <=? k) && (k <? zlen l)) eqn:Q; [|discriminate]. apply andb_true_iff in Q. destruct Q as (Q1 & Q2).
  replace ((0 <=? k) && (k <? zlen l + zlen r)) with true by lia. rewrite app_nth1 by (rewrite map_length; unfold zlen in Q2; lia). trivial.
Qed.

Section Run.
  Variable ch : cty.
  Hypothesis CH : char_type ch.
  Notation P := unicode_program.
  Notation rt := (types P). Notation cl := (calls P 0).
  Notation R := (runs rt cl).
  Lemma un_mono : forall n m f vs a, (n <= m)%nat -> cl n f vs a <> Fuel -> cl m f vs a = cl n f vs a. Proof. intros; now apply calls_mono. Qed.
  Notation mono := un_mono.
  Variable s : list Z.
  Hypothesis BS : Forall (fun b => 0 < b <= 255) s.
  Hypothesis LS : zlen s < 4611686018427387904.
  Variable ob : bool.
  Definition A : list (option Z) := map Some (map (conv ch) s ++ [0]).
  Lemma A_eq : A = map Some (map (conv ch) (s ++ [0])). Proof. unfold A. rewrite (map_app (conv ch)). cbn [map]. rewrite conv_0 by exact CH. reflexivity. Qed.
  Definition umem (out lu : list (option Z)) (n : option Z) : list (string * carr) := [("input", (ch, A)); ("out_u32", (U32, out)); ("label_u32", (U32, lu)); ("u32_cpy_alloc", (U64, [n]))].
  Definition us (rc ol e sp ll k : option Z) (out lu : list (option Z)) : cst :=
    mkst [("output", (I32, Some (if ob then 1 else 0))); ("rc", (I32, rc)); ("out_len", (U64, ol)); ("e", (U64, e)); ("s", (U64, sp)); ("label_len", (U64, ll)); ("k", (U64, k))] (umem out lu None).
  Definition u_loop : stmt := Eval cbn -[fill diff] in match nth 1 (flat (f_body c_to_unicode)) SSkip with SSeq _ b => b | b => b end.
  Definition u_body : stmt := Eval cbn -[fill diff] in match u_loop with SLoop _ _ b => b | b => b end.
  Definition u_find : stmt := Eval cbn -[fill diff] in match u_body with SSeq _ (SSeq a _) => a | b => b end.
  Definition u_test : expr := Eval cbn -[fill diff] in match u_body with SSeq _ (SSeq _ (SSeq (SIf c _ _) _)) => c | _ => int 0 end.
  Definition u_ace : stmt := Eval cbn -[fill diff] in match u_body with SSeq _ (SSeq _ (SSeq (SIf _ a _) _)) => a | b => b end.
  Definition u_plain : stmt := Eval cbn -[fill diff] in match u_body with SSeq _ (SSeq _ (SSeq (SIf _ _ a) _)) => a | b => b end.
  Definition u_last : stmt := Eval cbn -[fill diff] in match u_body with SSeq _ (SSeq _ (SSeq _ a)) => a | b => b end.

  Section Label.
    (** The label we are at, what is before it, and what ends it. *)
    Variables (pre x : list Z) (c : Z) (post : list Z).
    Hypothesis SX : s ++ [0] = pre ++ x ++ c :: post.
    Hypothesis PX : zlen pre + zlen x <= zlen s.
    Hypothesis DX : ~ In 46 x.
    Hypothesis BX : Forall (fun b => 0 < b <= 255) x.
    Hypothesis CX : c = 46 \/ c = 0.
    Lemma AX : A = map Some (map (conv ch) pre ++ map (conv ch) x ++ conv ch c :: map (conv ch) post).
    Proof. rewrite A_eq, SX. rewrite !map_app. cbn [map]. reflexivity. Qed.
    Lemma cell_A : forall p b r, pre ++ x ++ c :: post = p ++ b :: r -> cell A (zlen p) = Val (conv ch b).
    Proof. intros p b r E. rewrite A_eq, SX, E. rewrite <- (zlen_map _ _ (conv ch) p). apply (cell_at _ _ _ (map (conv ch) r)). rewrite map_app. reflexivity. Qed.
    (** The characters. *)
    Lemma is_char : forall i st p b r v, pre ++ x ++ c :: post = p ++ b :: r -> 0 <= b <= 255 -> 0 <= v < 128 -> assoc "input" (arrs st) = Some (ch, A) -> evals rt cl i st (U64, zlen p) st ->
      evals rt cl (EBin Eq (EIdx "input" i) (int v)) st (I32, if b =? v then 1 else 0) st.
    Proof.
      intros i st p b r v E B V AS I. eapply (ev_bin rt cl mono); [eapply (ev_idx rt cl); [exact AS|exact I|exact (cell_A p b r E)]|exists O; reflexivity|].
      rewrite <- (conv_eqb ch b v CH B V). destruct CH as [Q|Q]; rewrite Q; cbn; unfold cast; cbn; destruct (_ =? v); reflexivity.
    Qed.
    Lemma no_char : forall i st p b r v, pre ++ x ++ c :: post = p ++ b :: r -> 0 <= b <= 255 -> 0 <= v < 128 -> assoc "input" (arrs st) = Some (ch, A) -> evals rt cl i st (U64, zlen p) st ->
      evals rt cl (EBin Ne (EIdx "input" i) (int v)) st (I32, if negb (b =? v) then 1 else 0) st.
    Proof.
      intros i st p b r v E B V AS I. eapply (ev_bin rt cl mono); [eapply (ev_idx rt cl); [exact AS|exact I|exact (cell_A p b r E)]|exists O; reflexivity|].
      rewrite <- (conv_eqb ch b v CH B V). destruct CH as [Q|Q]; rewrite Q; cbn; unfold cast; cbn; destruct (_ =? v); reflexivity.
    Qed.
    Lemma the_char : forall i st p b r, pre ++ x ++ c :: post = p ++ b :: r -> assoc "input" (arrs st) = Some (ch, A) -> evals rt cl i st (U64, zlen p) st -> evals rt cl (EIdx "input" i) st (ch, conv ch b) st.
    Proof. intros i st p b r E AS I. eapply (ev_idx rt cl); [exact AS|exact I|exact (cell_A p b r E)]. Qed.
    Lemma c_byte : 0 <= c <= 255. Proof. destruct CX; subst; lia. Qed.
    Lemma end_at : pre ++ x ++ c :: post = (pre ++ x) ++ c :: post. Proof. apply app_assoc. Qed.

    Lemma find_runs : forall b a rc ol sp ll k out lu, x = a ++ b -> R u_find (us rc ol (Some (zlen pre + zlen a)) sp ll k out lu) (Norm (us rc ol (Some (zlen pre + zlen x)) sp ll k out lu)).
    Proof.
      pose proof (z0 _ pre). induction b as [|y b IH]; intros a rc ol sp ll k out lu E.
      - rewrite app_nil_r in E. subst a. assert (EV : forall st0, st0 = us rc ol (Some (zlen pre + zlen x)) sp ll k out lu -> evals rt cl (EVar "e") st0 (U64, zlen (pre ++ x)) st0) by (intros st0 ->; exists O; rewrite zlen_app; reflexivity).
        eapply (runs_loop_end rt cl mono _ _ _ _ (I32, 0)); [|reflexivity]. exists O. cc. rewrite <- zlen_app, (cell_A _ _ _ end_at). cc. rewrite conv_eqb by (auto using c_byte; lia).
        destruct CX as [Q|Q]; rewrite Q; cc; [|reflexivity]. rewrite (cell_A _ _ _ end_at). cc. rewrite Q. destruct CH as [T|T]; rewrite T; reflexivity.
      - assert (Y : 0 < y <= 255 /\ y <> 46). { split; [rewrite E in BX; apply Forall_app in BX; destruct BX as (_ & B); inversion B; assumption|]. intros ->. apply DX. rewrite E. apply in_app_iff. right. left. reflexivity. }
        assert (AT : pre ++ x ++ c :: post = (pre ++ a) ++ y :: b ++ c :: post) by (rewrite E, <- !app_assoc; reflexivity).
        pose proof (f_equal zlen E) as Z1. rewrite zlen_app, zlen_cons in Z1. pose proof (z0 _ a). pose proof (z0 _ b).
        eapply (runs_loop_next rt cl mono).
        + exists O. cc. rewrite <- zlen_app, (cell_A _ _ _ AT). cc. rewrite conv_eqb by (auto; lia). destruct (y =? 0) eqn:Y0; [lia|]. cc. rewrite (cell_A _ _ _ AT). cc.
          assert (Q46 : conv ch y =? 46 = false) by (rewrite conv_eqb by (auto; lia); lia). instantiate (1 := us rc ol (Some (zlen (pre ++ a))) sp ll k out lu). instantiate (1 := (I32, 1)).
          destruct CH as [T|T]; rewrite T in *; cbn in Q46 |- *; unfold cast; cbn; rewrite Q46; reflexivity.
        + discriminate.
        + rewrite zlen_app. eapply (runs_exp rt cl). exists O. cc. rewrite (u64_id (zlen pre + zlen a + 1)) by (unfold two64; lia). reflexivity.
        + apply runs_skip.
        + specialize (IH (a ++ [y]) rc ol sp ll k out lu ltac:(rewrite <- app_assoc; exact E)). rewrite zlen_app in IH. change (zlen [y]) with 1 in IH. rewrite Z.add_assoc in IH. exact IH.
    Qed.
    Definition ux (rc ol ll k : option Z) (out lu : list (option Z)) : cst := us rc ol (Some (zlen pre + zlen x)) (Some (zlen pre)) ll k out lu.
    Lemma diff_ev : forall rc ol sp ll k out lu d, 0 <= sp -> zlen pre + zlen x - sp = d -> 0 <= d -> d <= zlen x ->
      evals rt cl (diff (EVar "e") (EVar "s")) (us rc ol (Some (zlen pre + zlen x)) (Some sp) ll k out lu) (I64, d) (us rc ol (Some (zlen pre + zlen x)) (Some sp) ll k out lu).
    Proof.
      intros rc ol sp ll k out lu d S0 D D0 D1. pose proof (z0 _ pre). pose proof (z0 _ x). exists O. unfold diff. cbn -[conv]. unfold cast. cbn -[conv]. rewrite D. change (conv U64 d) with (u64 d).
      rewrite (u64_id d) by (unfold two64; lia). rewrite conv_i64 by lia. reflexivity.
    Qed.
    Lemma s_plus : forall rc ol ll k out lu j, 0 <= j <= zlen x -> evals rt cl (EBin Add (EVar "s") (int j)) (ux rc ol ll k out lu) (U64, zlen pre + j) (ux rc ol ll k out lu).
    Proof. intros rc ol ll k out lu j J. pose proof (z0 _ pre). exists O. cc. rewrite (u64_id j) by (unfold two64; lia). rewrite (u64_id (zlen pre + j)) by (unfold two64; lia). reflexivity. Qed.
    Lemma nth_is : forall a y b rc ol ll k out lu j v, x = a ++ y :: b -> zlen a = j -> 0 <= v < 128 -> evals rt cl (EBin Eq (EIdx "input" (EBin Add (EVar "s") (int j))) (int v)) (ux rc ol ll k out lu) (I32, if y =? v then 1 else 0) (ux rc ol ll k out lu).
    Proof.
      intros a y b rc ol ll k out lu j v E J V. pose proof (f_equal zlen E) as Z1. rewrite zlen_app, zlen_cons in Z1. pose proof (z0 _ a). pose proof (z0 _ b).
      apply (is_char _ _ (pre ++ a) y (b ++ c :: post)); [rewrite E, <- !app_assoc; reflexivity| |exact V|reflexivity|].
      - rewrite E in BX. apply Forall_app in BX. destruct BX as (_ & B). inversion B; subst. lia.
      - rewrite zlen_app, J. apply s_plus. lia.
    Qed.
    Lemma test_ev : forall rc ol ll k out lu, evals rt cl u_test (ux rc ol ll k out lu) (I32, if ace_anycase x then 1 else 0) (ux rc ol ll k out lu).
    Proof.
      intros rc ol ll k out lu. pose proof (z0 _ pre). pose proof (z0 _ x).
      assert (D : evals rt cl (EBin Ge (diff (EVar "e") (EVar "s")) (int 4)) (ux rc ol ll k out lu) (I32, if 4 <=? zlen x then 1 else 0) (ux rc ol ll k out lu)).
      { eapply (ev_bin rt cl mono); [apply (diff_ev rc ol (zlen pre) ll k out lu (zlen x)); lia|exists O; reflexivity|]. cbn. unfold cast. cbn. destruct (4 <=? zlen x); reflexivity. }
      destruct (4 <=? zlen x) eqn:L.
      - destruct x as [|a [|b [|e [|d y] ] ] ] eqn:EX; try discriminate L. cbn [ace_anycase]. rewrite <- EX in *.
        replace (((a =? 120) || (a =? 88)) && ((b =? 110) || (b =? 78)) && (e =? 45) && (d =? 45)) with (true && ((a =? 120) || (a =? 88)) && ((b =? 110) || (b =? 78)) && (e =? 45) && (d =? 45)) by reflexivity.
        unfold u_test. repeat (apply (ev_and rt cl mono)); try exact D; intros _; try (apply (ev_or rt cl mono); [|intros _]).
        + apply (nth_is [] a (b :: e :: d :: y)); [exact EX|reflexivity|lia].
        + apply (nth_is [] a (b :: e :: d :: y)); [exact EX|reflexivity|lia].
        + apply (nth_is [a] b (e :: d :: y)); [exact EX|reflexivity|lia].
        + apply (nth_is [a] b (e :: d :: y)); [exact EX|reflexivity|lia].
        + apply (nth_is [a; b] e (d :: y)); [exact EX|reflexivity|lia].
        + apply (nth_is [a; b; e] d y); [exact EX|reflexivity|lia].
      - assert (H1 : ace_anycase x = false). { destruct x as [|a [|b [|e [|d y] ] ] ]; try reflexivity. rewrite !zlen_cons in L. pose proof (z0 _ y). lia. }
        rewrite H1. unfold u_test. repeat (apply (ev_and rt cl mono) with (p := false) (q := true); [|discriminate]). exact D.
    Qed.
    Notation e0 := (zlen pre + zlen x).
    Definition dot : Z := if c =? 46 then 1 else 0.
    Lemma dot_ev : forall rc acc sp l k out lu, 0 <= acc -> 0 <= l -> acc + l < 9223372036854775807 ->
      evals rt cl (EBin Gt (EBin Add (EBin Add (EVar "out_len") (EVar "label_len")) (EBin Eq (EIdx "input" (EVar "e")) (int 46))) (int 255)) (us rc (Some acc) (Some e0) sp (Some l) k out lu)
        (I32, if 255 <? acc + l + dot then 1 else 0) (us rc (Some acc) (Some e0) sp (Some l) k out lu).
    Proof.
      intros rc acc sp l k out lu A0 L0 AL. assert (D : 0 <= dot <= 1) by (unfold dot; destruct (c =? 46); lia).
      eapply (ev_bin rt cl mono) with (x := (U64, acc + l + dot)) (y := (I32, 255)); [|exists O; reflexivity|].
      - eapply (ev_bin rt cl mono) with (x := (U64, acc + l)) (y := (I32, dot)).
        + exists O. cc. rewrite (u64_id (acc + l)) by (unfold two64; lia). reflexivity.
        + apply (is_char _ _ (pre ++ x) c post); [exact end_at|exact c_byte|lia|reflexivity|]. exists O. rewrite zlen_app. reflexivity.
        + cbn. unfold cast. cbn. rewrite (u64_id dot) by (unfold two64; lia). rewrite (u64_id (acc + l + dot)) by (unfold two64; lia). reflexivity.
      - cbn. unfold cast. cbn. change (u64 255) with 255. destruct (255 <? acc + l + dot); reflexivity.
    Qed.
    (** What a branch does: it leaves out_u32 longer, or stops. *)
    Definition did (b : stmt) (st : cst) (acc : list Z) (o : list (option Z)) (r : out (list Z)) : Prop :=
      match r with
      | Fail f => exists st' lu', R b st (Ret (I32, f) st') /\ arrs st' = umem o lu' None /\ zlen lu' = 63
      | Ok l => if 255 <? zlen acc + zlen l + dot then exists st' lu', R b st (Ret (I32, IDN2_TOO_BIG_DOMAIN) st') /\ arrs st' = umem o lu' None /\ zlen lu' = 63
                else exists rc' sp' k' rest' lu', R b st (Norm (us rc' (Some (zlen acc)) (Some e0) sp' (Some (zlen l)) k' (map Some (acc ++ l) ++ rest') lu')) /\ zlen (acc ++ l) + zlen rest' = 256 /\ zlen lu' = 63
      | _ => True
      end.
    Lemma BX0 : forall y, (forall b, In b y -> In b x) -> Forall (fun b => 0 <= b <= 255) y.
    Proof. intros y H. apply Forall_forall. intros b Q. rewrite Forall_forall in BX. specialize (BX b (H b Q)). lia. Qed.
    Section Ace.
      Variables (y : list Z) (a1 a2 a3 a4 : Z).
      Hypothesis XY : x = a1 :: a2 :: a3 :: a4 :: y.
      Hypothesis DL : forall l, puny_decode y 63 63 = Ok l -> zlen l <= 63.
      Lemma x4 : zlen x = zlen y + 4. Proof. rewrite XY, !zlen_cons. lia. Qed.
      Lemma part_y : part A (zlen pre + 4) (zlen y) = Val (map (conv ch) y).
      Proof.
        rewrite AX, XY. replace (map (conv ch) pre ++ map (conv ch) (a1 :: a2 :: a3 :: a4 :: y) ++ conv ch c :: map (conv ch) post) with
          ((map (conv ch) (pre ++ [a1; a2; a3; a4])) ++ map (conv ch) y ++ conv ch c :: map (conv ch) post) by (rewrite map_app, <- app_assoc; reflexivity).
        replace (zlen pre + 4) with (zlen (map (conv ch) (pre ++ [a1; a2; a3; a4]))) by (rewrite zlen_map, zlen_app; reflexivity). rewrite <- (zlen_map _ _ (conv ch) y). apply part_mid.
      Qed.
      Lemma udec_y : forall lu, zlen lu = 63 -> udec 63 lu (map (conv ch) y) = puny_decode y 63 63.
      Proof. intros lu L. unfold udec, dec_call. rewrite L, as_u8_conv; [reflexivity|exact CH|]. apply BX0. intros b Q. rewrite XY. do 4 right. exact Q. Qed.
      Definition uy (rc ol ll k : option Z) (out lu : list (option Z)) : cst := us rc ol (Some e0) (Some (zlen pre + 4)) ll k out lu.
      Lemma args_y : forall rc ol k out lu, Forall2 (fun a v => evals rt cl a (uy rc ol (Some 63) k out lu) v (uy rc ol (Some 63) k out lu)) [EVar "s"; diff (EVar "e") (EVar "s"); EVar "label_len"] [(U64, zlen pre + 4); (I64, zlen y); (U64, 63)].
      Proof. intros. pose proof (z0 _ pre). pose proof (z0 _ y). pose proof x4. constructor; [exists O; reflexivity|]. constructor; [apply diff_ev; lia|]. constructor; [exists O; reflexivity|constructor]. Qed.
      Lemma call_rc : forall rc ol k out lu v, zlen lu = 63 -> code (puny_decode y 63 63) = Val v ->
        evals rt cl (ECall "punycode_decode" ["input"; "label_u32"] [EVar "s"; diff (EVar "e") (EVar "s"); EVar "label_len"]) (uy rc ol (Some 63) k out lu) (I32, v) (uy rc ol (Some 63) k out lu).
      Proof.
        intros rc ol k out lu v L C. apply (ev_call rt cl mono _ "punycode_decode" _ _ _ v [(ch, A); (U32, lu)] (args_y rc ol k out lu)); [reflexivity|]. intros n.
        change (cl n "punycode_decode" [(U64, zlen pre + 4); (I64, zlen y); (U64, 63)] [(ch, A); (U32, lu)]) with (rc_of (udec 63 lu) (zlen pre + 4) (zlen y) A). rewrite (rc_part _ _ _ _ _ part_y), udec_y by exact L. exact C.
      Qed.
      Lemma call_len : forall rc ol k out lu l, zlen lu = 63 -> puny_decode y 63 63 = Ok l ->
        evals rt cl (ECall "punycode_decode *output_length" ["input"; "label_u32"] [EVar "s"; diff (EVar "e") (EVar "s"); EVar "label_len"]) (uy rc ol (Some 63) k out lu) (U64, zlen l) (uy rc ol (Some 63) k out lu).
      Proof.
        intros rc ol k out lu l L C. apply (ev_call rt cl mono _ "punycode_decode *output_length" _ _ _ (zlen l) [(ch, A); (U32, lu)] (args_y rc ol k out lu)); [reflexivity|]. intros n.
        change (cl n "punycode_decode *output_length" [(U64, zlen pre + 4); (I64, zlen y); (U64, 63)] [(ch, A); (U32, lu)]) with (len_of (udec 63 lu) (zlen pre + 4) (zlen y) A). apply (len_part _ _ _ _ _ l part_y). rewrite udec_y by exact L. exact C.
      Qed.
      Lemma call_elt : forall rc ol k out lu l b, zlen lu = 63 -> puny_decode y 63 63 = Ok l -> cell (map Some l) k = Val b ->
        evals rt cl (ECall "punycode_decode output" ["input"; "label_u32"] [EVar "s"; diff (EVar "e") (EVar "s"); EVar "label_len"; EVar "k"]) (uy rc ol (Some 63) (Some k) out lu) (U32, b) (uy rc ol (Some 63) (Some k) out lu).
      Proof.
        intros rc ol k out lu l b L C K. apply (ev_call rt cl mono _ "punycode_decode output" _ _ [(U64, zlen pre + 4); (I64, zlen y); (U64, 63); (U64, k)] b [(ch, A); (U32, lu)]); [|reflexivity|].
        - pose proof (args_y rc ol (Some k) out lu) as F. inversion F as [|? ? ? ? F1 F2]; subst. inversion F2 as [|? ? ? ? F3 F4]; subst. inversion F4 as [|? ? ? ? F5 F6]; subst. constructor; [exact F1|]. constructor; [exact F3|]. constructor; [exact F5|]. constructor; [exists O; reflexivity|constructor].
        - intros n. change (cl n "punycode_decode output" [(U64, zlen pre + 4); (I64, zlen y); (U64, 63); (U64, k)] [(ch, A); (U32, lu)]) with (elt_of (udec 63 lu) (zlen pre + 4) (zlen y) k A). rewrite (elt_part _ _ _ _ _ _ l part_y); [exact K|]. rewrite udec_y by exact L. exact C.
      Qed.
      Lemma ace_runs : forall rc acc k rest lu, zlen lu = 63 -> zlen acc <= 255 -> zlen acc + zlen rest = 256 ->
        did u_ace (ux rc (Some (zlen acc)) (Some 63) k (map Some acc ++ rest) lu) acc (map Some acc ++ rest) (puny_decode y 63 63).
      Proof.
        intros rc acc k rest lu LU A255 A256. pose proof (z0 _ pre). pose proof (z0 _ y). pose proof x4 as X4. pose proof (z0 _ acc) as A0.
        assert (P1 : forall st o v, code (puny_decode y 63 63) = Val v -> R st (uy (Some v) (Some (zlen acc)) (Some 63) k (map Some acc ++ rest) lu) o ->
          R (SSeq (SExp (EOp Add "s" (int 4))) (SSeq (SExp (EAsg "rc" (ECall "punycode_decode" ["input"; "label_u32"] [EVar "s"; diff (EVar "e") (EVar "s"); EVar "label_len"]))) st)) (ux rc (Some (zlen acc)) (Some 63) k (map Some acc ++ rest) lu) o).
        { intros st o v V Q. eapply (runs_seq rt cl mono). { eapply (runs_exp rt cl). exists O. cc. rewrite (u64_id (zlen pre + 4)) by (unfold two64; lia). reflexivity. }
          eapply (runs_seq rt cl mono); [|exact Q]. eapply (run_set rt cl _ _ _ _ (I32, v, _)); [apply call_rc; [exact LU|exact V]|reflexivity]. }
        pose proof (nz_decode y 63 63) as ND.
        unfold did. destruct (puny_decode y 63 63) as [l|r| |] eqn:PD; try exact Logic.I.
        - pose proof (DL l eq_refl) as L63. pose proof (z0 _ l) as L0. set (lu' := map Some l ++ skipn (length l) lu).
          assert (ZL : zlen lu' = 63) by (unfold lu'; rewrite zlen_app, zlen_map; unfold zlen in *; rewrite skipn_length; lia).
          assert (P2 : forall st o, R st (uy (Some 0) (Some (zlen acc)) (Some (zlen l)) (Some (zlen l)) (map Some acc ++ rest) lu') o ->
            R (SSeq (SIf (EVar "rc") (SReturn (EVar "rc")) SSkip) (SSeq (fill "label_u32" (int 0) (ECall "punycode_decode *output_length" ["input"; "label_u32"] [EVar "s"; diff (EVar "e") (EVar "s"); EVar "label_len"])
                 (ECall "punycode_decode output" ["input"; "label_u32"] [EVar "s"; diff (EVar "e") (EVar "s"); EVar "label_len"; EVar "k"]))
               (SSeq (SExp (EAsg "label_len" (ECall "punycode_decode *output_length" ["input"; "label_u32"] [EVar "s"; diff (EVar "e") (EVar "s"); EVar "label_len"]))) st))) (uy (Some 0) (Some (zlen acc)) (Some 63) k (map Some acc ++ rest) lu) o).
          { intros st o Q. eapply (runs_seq rt cl mono). { eapply (runs_if rt cl mono); [exists O; cc; reflexivity|]. apply runs_skip. }
            eapply (runs_seq rt cl mono).
            { refine (fill_runs rt cl mono (fun kk arr => uy (Some 0) (Some (zlen acc)) (Some 63) kk (map Some acc ++ rest) arr) "label_u32" (int 0) _ _ 0 l (zlen lu) _ _ _ _ [] lu k eq_refl _ eq_refl); [| | | |lia].
              - intros kk arr _. eapply (runs_exp rt cl). exists O. cc. reflexivity.
              - intros kk arr B E. eapply (ev_bin rt cl mono); [exists O; reflexivity|apply (call_len _ _ _ _ _ l); [lia|exact PD]|]. cbn. unfold cast. cbn. destruct (kk <? zlen l); reflexivity.
              - intros kk b arr arr' B C IY E S. apply (run_store rt cl mono (uy (Some 0) (Some (zlen acc)) (Some 63) (Some kk) (map Some acc ++ rest) arr) "label_u32" _ _ U32 arr (U64, kk) (U32, b) arr'); [reflexivity| | |].
                + exists O. cc. rewrite ?Z.add_0_l, ?(u64_id kk) by (unfold two64; lia). reflexivity.
                + apply (call_elt _ _ _ _ _ l); [lia|exact PD|exact C].
                + exact S.
              - intros kk arr B. eapply (runs_exp rt cl). exists O. cc. rewrite (u64_id (kk + 1)) by (unfold two64; lia). reflexivity. }
            cbn [app]. fold lu'. eapply (runs_seq rt cl mono); [|exact Q]. eapply (run_set rt cl _ _ _ _ (U64, zlen l, _)); [apply (call_len _ _ _ _ _ l); [exact ZL|exact PD]|reflexivity]. }
          assert (DE := dot_ev (Some 0) (zlen acc) (Some (zlen pre + 4)) (zlen l) (Some (zlen l)) (map Some acc ++ rest) lu' A0 L0 ltac:(lia)).
          destruct (255 <? zlen acc + zlen l + dot) eqn:Q.
          + do 2 eexists. split; [|split; [|exact ZL] ].
            * unfold u_ace. eapply (P1 _ _ 0 eq_refl). apply P2. eapply (runs_seq_stop rt cl); [|exact Logic.I]. eapply (runs_if rt cl mono); [exact DE|]. eapply (runs_ret rt cl). exists O. reflexivity.
            * reflexivity.
          + assert (D0 : 0 <= dot) by (unfold dot; destruct (c =? 46); lia). exists (Some 0), (Some (zlen pre + 4)), (Some (zlen l)), (skipn (length l) rest), lu'. split; [|split; [|exact ZL] ].
            * unfold u_ace. eapply (P1 _ _ 0 eq_refl). apply P2. eapply (runs_seq rt cl mono). { eapply (runs_if rt cl mono); [exact DE|]. apply runs_skip. }
              rewrite map_app, <- app_assoc.
              refine (fill_runs rt cl mono (fun kk arr => uy (Some 0) (Some (zlen acc)) (Some (zlen l)) kk arr lu') "out_u32" (EVar "out_len") _ _ (zlen acc) l 256 _ _ _ _ (map Some acc) rest (Some (zlen l)) _ _ _); [| | | |apply zlen_map|lia|rewrite zlen_app, zlen_map; lia].
              -- intros kk arr _. eapply (runs_exp rt cl). exists O. cc. reflexivity.
              -- intros kk arr B E. exists O. cc. destruct (kk <? zlen l); reflexivity.
              -- intros kk b arr arr' B C IY E S. apply (run_store rt cl mono (uy (Some 0) (Some (zlen acc)) (Some (zlen l)) (Some kk) arr lu') "out_u32" _ _ U32 arr (U64, zlen acc + kk) (U32, b) arr'); [reflexivity| | |exact S].
                ++ exists O. cc. rewrite (u64_id (zlen acc + kk)) by (unfold two64; lia). reflexivity.
                ++ eapply (ev_idx rt cl) with (k := (U64, kk)); [reflexivity|exists O; reflexivity|]. cbn [snd]. unfold lu'. apply cell_front. exact C.
              -- intros kk arr B. eapply (runs_exp rt cl). exists O. cc. rewrite (u64_id (kk + 1)) by (unfold two64; lia). reflexivity.
            * rewrite zlen_app. unfold zlen in *. rewrite skipn_length. lia.
        - specialize (ND r eq_refl). unfold IDN2_OK in ND. do 2 eexists. split; [|split; [|exact LU] ].
          + unfold u_ace. eapply (P1 _ _ r eq_refl). eapply (runs_seq_stop rt cl); [|exact Logic.I]. eapply (runs_if rt cl mono); [exists O; cc; reflexivity|]. cbn [snd]. destruct (r =? 0) eqn:Q; [lia|]. eapply (runs_ret rt cl). exists O. cc. reflexivity.
          + reflexivity.
      Qed.
    End Ace.
    Lemma part_x : part A (zlen pre) (zlen x) = Val (map (conv ch) x).
    Proof. rewrite AX. rewrite <- (zlen_map _ _ (conv ch) pre), <- (zlen_map _ _ (conv ch) x). apply part_mid. Qed.
    Lemma as_x : as_u8 (map (conv ch) x) = x. Proof. apply as_u8_conv; [exact CH|apply BX0; trivial]. Qed.
    Lemma args_x : forall rc ol ll k out lu, Forall2 (fun a v => evals rt cl a (ux rc ol ll k out lu) v (ux rc ol ll k out lu)) [EVar "s"; diff (EVar "e") (EVar "s")] [(U64, zlen pre); (I64, zlen x)].
    Proof. intros. pose proof (z0 _ pre). pose proof (z0 _ x). constructor; [exists O; reflexivity|]. constructor; [apply diff_ev; lia|constructor]. Qed.
    Lemma call_u32 : forall rc ol ll k out lu, evals rt cl (ECall "u8_to_u32" ["input"] [EVar "s"; diff (EVar "e") (EVar "s")]) (ux rc ol ll k out lu) (I64, match u8_to_u32 x with Some a => zlen a | None => -1 end) (ux rc ol ll k out lu).
    Proof.
      intros. apply (ev_call rt cl mono _ "u8_to_u32" _ _ _ _ [(ch, A)] (args_x rc ol ll k out lu)); [reflexivity|]. intros n.
      change (cl n "u8_to_u32" [(U64, zlen pre); (I64, zlen x)] [(ch, A)]) with (on_part (fun s => Val (match u8_to_u32 (as_u8 s) with Some a => zlen a | None => -1 end)) (zlen pre) (zlen x) A).
      unfold on_part. rewrite part_x. cbn [rbind]. rewrite as_x. reflexivity.
    Qed.
    Lemma call_u32_elt : forall rc ol ll k out lu l b, u8_to_u32 x = Some l -> cell (map Some l) k = Val b ->
      evals rt cl (ECall "u8_to_u32 result" ["input"] [EVar "s"; diff (EVar "e") (EVar "s"); EVar "k"]) (ux rc ol ll (Some k) out lu) (U32, b) (ux rc ol ll (Some k) out lu).
    Proof.
      intros rc ol ll k out lu l b E C. apply (ev_call rt cl mono _ "u8_to_u32 result" _ _ [(U64, zlen pre); (I64, zlen x); (U64, k)] b [(ch, A)]); [|reflexivity|].
      - pose proof (args_x rc ol ll (Some k) out lu) as F. inversion F as [|? ? ? ? F1 F2]; subst. inversion F2 as [|? ? ? ? F3 F4]; subst. constructor; [exact F1|]. constructor; [exact F3|]. constructor; [exists O; reflexivity|constructor].
      - intros n. change (cl n "u8_to_u32 result" [(U64, zlen pre); (I64, zlen x); (U64, k)] [(ch, A)]) with (on_part (fun s => match u8_to_u32 (as_u8 s) with Some a => cell (map Some a) k | None => UB end) (zlen pre) (zlen x) A).
        unfold on_part. rewrite part_x. cbn [rbind]. rewrite as_x, E. exact C.
    Qed.
    Lemma plain_runs : forall rc acc k rest lu, zlen lu = 63 -> zlen acc <= 255 -> zlen acc + zlen rest = 256 ->
      did u_plain (ux rc (Some (zlen acc)) (Some 63) k (map Some acc ++ rest) lu) acc (map Some acc ++ rest)
        (match u8_to_u32 x with None => Fail IDN2_ENCODING_ERROR | Some l => if 63 <? zlen l then Fail IDN2_TOO_BIG_LABEL else Ok l end).
    Proof.
      intros rc acc k rest lu LU A255 A256. pose proof (z0 _ pre). pose proof (z0 _ x). pose proof (z0 _ acc) as A0. set (o := map Some acc ++ rest).
      assert (E1 : evals rt cl (EBin Eq (ECall "u8_to_u32" ["input"] [EVar "s"; diff (EVar "e") (EVar "s")]) (EBin Sub (int 0) (int 1))) (ux rc (Some (zlen acc)) (Some 63) k o lu) (I32, match u8_to_u32 x with Some _ => 0 | None => 1 end) (ux rc (Some (zlen acc)) (Some 63) k o lu)).
      { eapply (ev_bin rt cl mono); [apply call_u32|exists O; reflexivity|]. generalize (u8_to_u32 x). intros [a|]; cbn; unfold cast; cbn; [|reflexivity]. pose proof (z0 _ a). replace (zlen a =? -1) with false by lia. reflexivity. }
      unfold did. destruct (u8_to_u32 x) as [l|] eqn:E8.
      2: { exists (ux rc (Some (zlen acc)) (Some 63) k o lu), lu. split; [|split; [reflexivity|exact LU] ]. unfold u_plain. eapply (runs_seq_stop rt cl); [|exact Logic.I]. eapply (runs_if rt cl mono); [exact E1|]. eapply (runs_ret rt cl). exists O. reflexivity. }
      pose proof (z0 _ l) as L0. pose proof (u8_to_u32_len (length x) x l ltac:(lia) E8) as LX.
      assert (P1 : forall st u, R st (ux rc (Some (zlen acc)) (Some (zlen l)) k o lu) u ->
        R (SSeq (SIf (EBin Eq (ECall "u8_to_u32" ["input"] [EVar "s"; diff (EVar "e") (EVar "s")]) (EBin Sub (int 0) (int 1))) (SReturn (int IDN2_ENCODING_ERROR)) SSkip) (SSeq (SExp (EAsg "label_len" (ECall "u8_to_u32" ["input"] [EVar "s"; diff (EVar "e") (EVar "s")]))) st))
          (ux rc (Some (zlen acc)) (Some 63) k o lu) u).
      { intros st u Q. eapply (runs_seq rt cl mono). { eapply (runs_if rt cl mono); [exact E1|]. apply runs_skip. }
        eapply (runs_seq rt cl mono); [|exact Q]. pose proof (call_u32 rc (Some (zlen acc)) (Some 63) k o lu) as CU. rewrite E8 in CU.
        eapply (run_set rt cl _ _ _ _ (U64, zlen l, _)); [exact CU|]. cbn. unfold cast. cbn. rewrite (u64_id (zlen l)) by (unfold two64; lia). reflexivity. }
      assert (E2 : evals rt cl (EBin Gt (EVar "label_len") (int 63)) (ux rc (Some (zlen acc)) (Some (zlen l)) k o lu) (I32, if 63 <? zlen l then 1 else 0) (ux rc (Some (zlen acc)) (Some (zlen l)) k o lu)) by (exists O; cc; destruct (63 <? zlen l); reflexivity).
      destruct (63 <? zlen l) eqn:L63.
      { exists (ux rc (Some (zlen acc)) (Some (zlen l)) k o lu), lu. split; [|split; [reflexivity|exact LU] ]. unfold u_plain. apply P1. eapply (runs_seq_stop rt cl); [|exact Logic.I]. eapply (runs_if rt cl mono); [exact E2|]. eapply (runs_ret rt cl). exists O. reflexivity. }
      assert (DE := dot_ev rc (zlen acc) (Some (zlen pre)) (zlen l) k o lu A0 L0 ltac:(lia)).
      destruct (255 <? zlen acc + zlen l + dot) eqn:Q.
      - exists (ux rc (Some (zlen acc)) (Some (zlen l)) k o lu), lu. split; [|split; [reflexivity|exact LU] ]. unfold u_plain. apply P1. eapply (runs_seq rt cl mono). { eapply (runs_if rt cl mono); [exact E2|]. apply runs_skip. }
        eapply (runs_seq_stop rt cl); [|exact Logic.I]. eapply (runs_if rt cl mono); [exact DE|]. eapply (runs_ret rt cl). exists O. reflexivity.
      - assert (D0 : 0 <= dot) by (unfold dot; destruct (c =? 46); lia). exists rc, (Some (zlen pre)), (Some (zlen l)), (skipn (length l) rest), lu. split; [|split; [|exact LU] ].
        + unfold u_plain. apply P1. eapply (runs_seq rt cl mono). { eapply (runs_if rt cl mono); [exact E2|]. apply runs_skip. }
          eapply (runs_seq rt cl mono). { eapply (runs_if rt cl mono); [exact DE|]. apply runs_skip. }
          unfold o. rewrite map_app, <- app_assoc.
          refine (fill_runs rt cl mono (fun kk arr => ux rc (Some (zlen acc)) (Some (zlen l)) kk arr lu) "out_u32" (EVar "out_len") _ _ (zlen acc) l 256 _ _ _ _ (map Some acc) rest k _ _ _); [| | | |apply zlen_map|lia|rewrite zlen_app, zlen_map; lia].
          * intros kk arr _. eapply (runs_exp rt cl). exists O. cc. reflexivity.
          * intros kk arr B E. exists O. cc. destruct (kk <? zlen l); reflexivity.
          * intros kk b arr arr' B C IY E S. apply (run_store rt cl mono (ux rc (Some (zlen acc)) (Some (zlen l)) (Some kk) arr lu) "out_u32" _ _ U32 arr (U64, zlen acc + kk) (U32, b) arr'); [reflexivity| | |exact S].
            -- exists O. cc. rewrite (u64_id (zlen acc + kk)) by (unfold two64; lia). reflexivity.
            -- apply (call_u32_elt _ _ _ _ _ _ l); [exact E8|exact C].
          * intros kk arr B. eapply (runs_exp rt cl). exists O. cc. rewrite (u64_id (kk + 1)) by (unfold two64; lia). reflexivity.
        + rewrite zlen_app. unfold zlen in *. rewrite skipn_length. lia.
    Qed.
    Definition dots : list Z := if c =? 46 then [46] else [].
    Lemma branch_runs : forall rc acc k rest lu, zlen lu = 63 -> zlen acc <= 255 -> zlen acc + zlen rest = 256 ->
      did (SIf u_test u_ace u_plain) (ux rc (Some (zlen acc)) (Some 63) k (map Some acc ++ rest) lu) acc (map Some acc ++ rest) (unicode_label x).
    Proof.
      intros rc acc k rest lu LU A255 A256.
      assert (G : forall b r, did b (ux rc (Some (zlen acc)) (Some 63) k (map Some acc ++ rest) lu) acc (map Some acc ++ rest) r -> b = (if ace_anycase x then u_ace else u_plain) ->
        did (SIf u_test u_ace u_plain) (ux rc (Some (zlen acc)) (Some 63) k (map Some acc ++ rest) lu) acc (map Some acc ++ rest) r).
      { intros b r D ->. assert (I : forall o, R (if ace_anycase x then u_ace else u_plain) (ux rc (Some (zlen acc)) (Some 63) k (map Some acc ++ rest) lu) o -> R (SIf u_test u_ace u_plain) (ux rc (Some (zlen acc)) (Some 63) k (map Some acc ++ rest) lu) o).
        { intros o Q. eapply (runs_if rt cl mono); [apply test_ev|]. cbn [snd]. destruct (ace_anycase x); exact Q. }
        unfold did in *. destruct r as [l|f| |]; try exact Logic.I.
        - destruct (255 <? zlen acc + zlen l + dot).
          + destruct D as (st' & lu' & D1 & D2). exists st', lu'. split; [apply I; exact D1|exact D2].
          + destruct D as (r' & sp' & k' & rest' & lu' & D1 & D2). exists r', sp', k', rest', lu'. split; [apply I; exact D1|exact D2].
        - destruct D as (st' & lu' & D1 & D2). exists st', lu'. split; [apply I; exact D1|exact D2]. }
      unfold unicode_label. destruct (ace_anycase x) eqn:X.
      - destruct x as [|a1 [|a2 [|a3 [|a4 y] ] ] ] eqn:EX; try discriminate X. rewrite <- EX in *. rewrite EX. cbn [skipn]. apply (G u_ace); [|reflexivity]. apply (ace_runs y a1 a2 a3 a4 EX); try assumption.
        intros l Q. assert (ZY : zlen y < two64). { pose proof (x4 y a1 a2 a3 a4 EX). pose proof (z0 _ pre). unfold two64. lia. } apply (decode_iff y 63 63 l) in Q; [apply Q|lia|lia|exact ZY].
      - apply (G u_plain); [|reflexivity]. pose proof (plain_runs rc acc k rest lu LU A255 A256) as PR. destruct (u8_to_u32 x) as [l|]; [|exact PR]. cbn [Utf8.conv bind]. exact PR.
    Qed.
    Lemma last_runs : forall rc acc l sp k rest lu, zlen (acc ++ l) + dot <= 255 -> zlen (acc ++ l) + zlen rest = 256 ->
      exists rest', R u_last (us rc (Some (zlen acc)) (Some e0) sp (Some (zlen l)) k (map Some (acc ++ l) ++ rest) lu)
        (Norm (us rc (Some (zlen (acc ++ l ++ dots))) (Some (e0 + dot)) sp (Some (zlen l)) k (map Some (acc ++ l ++ dots) ++ rest') lu)) /\ zlen (acc ++ l ++ dots) + zlen rest' = 256.
    Proof.
      intros rc acc l sp k rest lu L255 L256. pose proof (z0 _ pre). pose proof (z0 _ x). pose proof (z0 _ acc). pose proof (z0 _ l). unfold u_last.
      assert (D0 : 0 <= dot <= 1) by (unfold dot; destruct (c =? 46); lia). rewrite zlen_app in L255.
      assert (P1 : forall st o, R st (us rc (Some (zlen (acc ++ l))) (Some e0) sp (Some (zlen l)) k (map Some (acc ++ l) ++ rest) lu) o -> R (SSeq (SExp (EOp Add "out_len" (EVar "label_len"))) st) (us rc (Some (zlen acc)) (Some e0) sp (Some (zlen l)) k (map Some (acc ++ l) ++ rest) lu) o).
      { intros st o Q. eapply (runs_seq rt cl mono); [|exact Q]. eapply (runs_exp rt cl). exists O. cc. rewrite (u64_id (zlen acc + zlen l)) by (unfold two64; lia). rewrite zlen_app. reflexivity. }
      assert (EC : forall st0, st0 = us rc (Some (zlen (acc ++ l))) (Some e0) sp (Some (zlen l)) k (map Some (acc ++ l) ++ rest) lu -> evals rt cl (EIdx "input" (EVar "e")) st0 (ch, conv ch c) st0).
      { intros st0 ->. apply (the_char _ _ (pre ++ x) c post); [exact end_at|reflexivity|]. exists O. rewrite (zlen_app _ pre x). reflexivity. }
      assert (C0 : (conv ch c =? 0) = negb (c =? 46)) by (rewrite conv_eqb by (auto using c_byte; lia); destruct CX as [Q|Q]; rewrite Q; reflexivity).
      unfold dots, dot in *. destruct (c =? 46) eqn:Q.
      - destruct rest as [|y rest]; [change (zlen (@nil (option Z))) with 0 in L256; rewrite zlen_app in L256; lia|]. rewrite zlen_cons in L256. exists rest. split.
        + apply P1. eapply (runs_if rt cl mono); [apply EC; reflexivity|]. cbn [snd]. rewrite C0. cbn [negb].
          eapply (runs_seq rt cl mono).
          { exists O. split; [|discriminate]. cc. rewrite set_cell_out. cc. rewrite (u64_id (zlen (acc ++ l) + 1)) by (rewrite zlen_app; unfold two64; lia). reflexivity. }
          eapply (runs_exp rt cl). exists O. cc. rewrite (u64_id (zlen pre + zlen x + 1)) by (unfold two64; lia).
          replace (zlen (acc ++ l ++ [46])) with (zlen (acc ++ l) + 1) by (rewrite app_assoc, (zlen_app _ (acc ++ l)); reflexivity). rewrite (app_assoc acc), (map_app (@Some Z) (acc ++ l)), <- (app_assoc (map (@Some Z) (acc ++ l))). reflexivity.
        + rewrite app_assoc, zlen_app. change (zlen [46]) with 1. lia.
      - exists rest. rewrite app_nil_r. split; [|exact L256]. apply P1. rewrite Z.add_0_r. eapply (runs_if rt cl mono); [apply EC; reflexivity|]. cbn [snd]. rewrite C0. apply runs_skip.
    Qed.
    Lemma label_runs : forall rc acc ll k rest lu, zlen lu = 63 -> zlen acc <= 255 -> zlen acc + zlen rest = 256 ->
      match unicode_label x with
      | Fail f => exists st' lu', R u_body (us rc (Some (zlen acc)) (Some (zlen pre)) (Some (zlen pre)) ll k (map Some acc ++ rest) lu) (Ret (I32, f) st') /\ arrs st' = umem (map Some acc ++ rest) lu' None /\ zlen lu' = 63
      | Ok l => if 255 <? zlen acc + zlen l + dot then exists st' lu', R u_body (us rc (Some (zlen acc)) (Some (zlen pre)) (Some (zlen pre)) ll k (map Some acc ++ rest) lu) (Ret (I32, IDN2_TOO_BIG_DOMAIN) st') /\ arrs st' = umem (map Some acc ++ rest) lu' None /\ zlen lu' = 63
                else exists rc' sp' ll' k' rest' lu', R u_body (us rc (Some (zlen acc)) (Some (zlen pre)) (Some (zlen pre)) ll k (map Some acc ++ rest) lu)
                       (Norm (us rc' (Some (zlen (acc ++ l ++ dots))) (Some (e0 + dot)) sp' ll' k' (map Some (acc ++ l ++ dots) ++ rest') lu')) /\ zlen (acc ++ l ++ dots) + zlen rest' = 256 /\ zlen lu' = 63
      | _ => True
      end.
    Proof.
      intros rc acc ll k rest lu LU A255 A256. pose proof (branch_runs rc acc k rest lu LU A255 A256) as B. unfold did in B.
      pose proof (find_runs x [] rc (Some (zlen acc)) (Some (zlen pre)) (Some 63) k (map Some acc ++ rest) lu eq_refl) as F. change (zlen (@nil Z)) with 0 in F. rewrite Z.add_0_r in F.
      change u_body with (SSeq (SExp (EAsg "label_len" (int 63))) (SSeq u_find (SSeq (SIf u_test u_ace u_plain) u_last))).
      assert (P1 : forall st o, R st (ux rc (Some (zlen acc)) (Some 63) k (map Some acc ++ rest) lu) o -> R (SSeq (SExp (EAsg "label_len" (int 63))) (SSeq u_find st)) (us rc (Some (zlen acc)) (Some (zlen pre)) (Some (zlen pre)) ll k (map Some acc ++ rest) lu) o).
      { intros st o Q. eapply (runs_seq rt cl mono). { eapply (runs_exp rt cl). exists O. cc. reflexivity. } eapply (runs_seq rt cl mono); [exact F|exact Q]. }
      destruct (unicode_label x) as [l|f| |]; try exact Logic.I.
      - destruct (255 <? zlen acc + zlen l + dot) eqn:Q.
        + destruct B as (st' & lu' & B1 & B2). exists st', lu'. split; [|exact B2]. apply P1. eapply (runs_seq_stop rt cl); [exact B1|exact Logic.I].
        + destruct B as (r' & sp' & k' & rest' & lu' & B1 & B2 & B3). destruct (last_runs r' acc l sp' k' rest' lu' ltac:(rewrite zlen_app; lia) B2) as (rest2 & L1 & L2).
          exists r', sp', (Some (zlen l)), k', rest2, lu'. split; [|split; [exact L2|exact B3] ]. apply P1. eapply (runs_seq rt cl mono); [exact B1|exact L1].
      - destruct B as (st' & lu' & B1 & B2). exists st', lu'. split; [|exact B2]. apply P1. eapply (runs_seq_stop rt cl); [exact B1|exact Logic.I].
    Qed.
  End Label.
  Lemma char_at : forall i st p b r, s ++ [0] = p ++ b :: r -> assoc "input" (arrs st) = Some (ch, A) -> evals rt cl i st (U64, zlen p) st -> evals rt cl (EIdx "input" i) st (ch, conv ch b) st.
  Proof. intros i st p b r E. exact (the_char p [] b r E i st p b r eq_refl). Qed.
  Definition lstart rc acc p ll k rest lu := us rc (Some (zlen acc)) (Some p) (Some p) ll k (map Some acc ++ rest) lu.
  Lemma u_stop : forall rc acc ll k rest lu, R u_loop (lstart rc acc (zlen s) ll k rest lu) (Norm (lstart rc acc (zlen s) ll k rest lu)).
  Proof.
    intros. apply (runs_loop_end rt cl mono _ _ _ _ (ch, conv ch 0)); [|rewrite conv_0 by exact CH; reflexivity].
    apply (char_at _ _ s 0 []); [reflexivity|reflexivity|exists O; reflexivity].
  Qed.
  Definition ends (rc : option Z) (acc : list Z) (p : Z) ll k rest lu (m : out (list Z)) : Prop :=
    match m with
    | Ok o => exists rc' p' ll' k' rest' lu', R u_loop (lstart rc acc p ll k rest lu) (Norm (lstart rc' o p' ll' k' rest' lu')) /\ zlen o <= 255 /\ zlen o + zlen rest' = 256
    | Fail r => exists st out' lu', R u_loop (lstart rc acc p ll k rest lu) (Ret (I32, r) st) /\ arrs st = umem out' lu' None
    | _ => True
    end.
  Lemma labels_runs : forall ls pre acc rc ll k rest lu, ls <> [] -> Forall (fun l => ~ In 46 l) ls -> s = pre ++ join ls -> zlen lu = 63 -> zlen acc <= 255 -> zlen acc + zlen rest = 256 ->
    ends rc acc (zlen pre) ll k rest lu (unicode_labels ls acc).
  Proof.
    induction ls as [|x ls IH]; intros pre acc rc ll k rest lu NE ND SP LU A255 A256; [contradiction|]. inversion ND as [|? ? D1 D2]; subst x0 l. pose proof (f_equal zlen SP) as ZP. rewrite zlen_app in ZP. pose proof (z0 _ pre) as P0. pose proof (z0 _ x) as X0.
    set (c := match ls with [] => 0 | _ => 46 end). set (post := match ls with [] => [] | _ => join ls ++ [0] end).
    assert (SX : s ++ [0] = pre ++ x ++ c :: post). { rewrite SP at 1. rewrite <- app_assoc. f_equal. unfold c, post. destruct ls; cbn [join]; [reflexivity|]. rewrite <- !app_assoc. reflexivity. }
    assert (PX : zlen pre + zlen x <= zlen s). { rewrite ZP. destruct ls; cbn [join]; [lia|]. rewrite zlen_app. match goal with |- context [zlen (?a :: ?b)] => pose proof (z0 _ (a :: b)) end. lia. }
    assert (BX : Forall (fun c => 0 < c <= 255) x). { apply Forall_forall. intros b Q. apply (proj1 (Forall_forall _ _) BS). rewrite SP. apply in_app_iff. right. destruct ls; cbn [join]; [exact Q|]. apply in_app_iff. left. exact Q. }
    assert (CX : c = 46 \/ c = 0) by (unfold c; destruct ls; tauto).
    assert (MD : unicode_labels (x :: ls) acc = if match x, ls with [], [] => true | _, _ => false end then Ok acc else
      bind (unicode_label x) (fun l => if DOMAIN_MAX <? zlen acc + zlen l + match ls with [] => 0 | _ => 1 end then Fail IDN2_TOO_BIG_DOMAIN else if DOMAIN_MAX + 1 <? zlen acc + zlen l then Undef else
        match ls with [] => Ok (acc ++ l) | _ => let* acc' := put (DOMAIN_MAX + 1) (acc ++ l) 46 in unicode_labels ls acc' end)) by (cbn [unicode_labels]; destruct x, ls; reflexivity).
    rewrite MD. destruct (match x, ls with [], [] => true | _, _ => false end) eqn:DN.
    - assert (x = [] /\ ls = []) as (E1 & E2) by (destruct x, ls; try discriminate DN; auto). subst x ls. cbn [join] in ZP. change (zlen (@nil Z)) with 0 in ZP. rewrite Z.add_0_r in ZP. rewrite <- ZP. do 6 eexists. split; [apply u_stop|]. auto.
    - assert (VE : exists v, v <> 0 /\ evals rt cl (EIdx "input" (EVar "e")) (lstart rc acc (zlen pre) ll k rest lu) (ch, v) (lstart rc acc (zlen pre) ll k rest lu)).
      { destruct x as [|y x'] eqn:EX.
        - exists (conv ch c). assert (c = 46) as Q46 by (unfold c; destruct ls; [discriminate DN|reflexivity]). split; [rewrite Q46; destruct CH as [-> | ->]; discriminate|]. apply (char_at _ _ pre c post); [exact SX|reflexivity|exists O; reflexivity].
        - exists (conv ch y). inversion BX as [|? ? B1 B2]; subst. split.
          + pose proof (conv_eqb ch y 0 CH ltac:(lia) ltac:(lia)) as Q. intros W. rewrite W in Q. cbn in Q. lia.
          + apply (char_at _ _ pre y (x' ++ c :: post)); [exact SX|reflexivity|exists O; reflexivity]. }
      destruct VE as (v & V0 & VE).
      pose proof (label_runs pre x c post SX PX D1 BX CX rc acc ll k rest lu LU A255 A256) as LR.
      assert (DOT : dot c = match ls with [] => 0 | _ => 1 end) by (unfold dot, c; destruct ls; reflexivity). rewrite DOT in LR.
      destruct (unicode_label x) as [l|f| |]; cbn [bind]; try exact Logic.I.
      2: { destruct LR as (st & lu' & L1 & L2 & _). exists st. do 2 eexists. split; [|exact L2]. exact (runs_loop_stop rt cl mono _ _ _ _ _ _ (Ret (I32, _) _) VE V0 L1 Logic.I). }
      unfold DOMAIN_MAX. destruct (255 <? zlen acc + zlen l + _) eqn:Q.
      { destruct LR as (st & lu' & L1 & L2 & _). exists st. do 2 eexists. split; [|exact L2]. exact (runs_loop_stop rt cl mono _ _ _ _ _ _ (Ret (I32, _) _) VE V0 L1 Logic.I). }
      replace (255 + 1 <? zlen acc + zlen l) with false by (destruct ls; lia).
      destruct LR as (rc' & sp' & ll' & k' & rest' & lu' & L1 & L2 & L3). set (p2 := zlen pre + zlen x + match ls with [] => 0 | _ => 1 end) in *.
      assert (TR : forall o, R u_loop (lstart rc' (acc ++ l ++ dots c) p2 ll' k' rest' lu') o -> R u_loop (lstart rc acc (zlen pre) ll k rest lu) o).
      { intros o G. eapply (runs_loop_next rt cl mono); [exact VE|exact V0|exact L1| |exact G]. eapply (runs_exp rt cl). exists O. unfold lstart. cc. reflexivity. }
      pose proof (z0 _ acc). pose proof (z0 _ l). destruct ls as [|y ls].
      + assert (p2 = zlen s) as EP by (unfold p2; rewrite ZP; cbn [join]; lia). change (dots c) with (@nil Z) in *. rewrite app_nil_r in *. exists rc', p2, ll', k', rest', lu'. split; [apply TR; rewrite EP; apply u_stop|]. split; [rewrite zlen_app; lia|exact L2].
      + assert (EP : p2 = zlen (pre ++ x ++ [46])) by (unfold p2; rewrite !zlen_app; change (zlen [46]) with 1; lia). change (dots c) with [46] in *.
        unfold put. replace (zlen (acc ++ l) <? 255 + 1) with true by (rewrite zlen_app; lia). cbn [bind]. rewrite <- app_assoc.
        assert (L4 : zlen (acc ++ l ++ [46]) <= 255) by (rewrite !zlen_app; change (zlen [46]) with 1; lia).
        specialize (IH (pre ++ x ++ [46]) (acc ++ l ++ [46]) rc' ll' k' rest' lu' ltac:(discriminate) D2 ltac:(rewrite SP, <- !app_assoc; reflexivity) L3 L4 L2). rewrite <- EP in IH. unfold ends in *.
        destruct (unicode_labels (y :: ls) (acc ++ l ++ [46])) as [o|f| |]; try exact Logic.I.
        * destruct IH as (r1 & p1 & l1 & k1 & t1 & u1 & G & H1). do 6 eexists. split; [apply TR; exact G|exact H1].
        * destruct IH as (st & o1 & u1 & G & H1). do 3 eexists. split; [apply TR; exact G|exact H1].
  Qed.
  Lemma unicode_runs : forall lu, zlen lu = 63 ->
    match unicode s with
    | Ok d => exists st rest lu', R (f_body c_to_unicode) (us None None None None None None (repeat None 256) lu) (Ret (I32, 0) st) /\
        arrs st = if ob then umem (map Some (d ++ [0]) ++ rest) lu' (Some (zlen d + 1)) else umem (map Some d ++ rest) lu' None
    | Fail r => exists st out' lu', R (f_body c_to_unicode) (us None None None None None None (repeat None 256) lu) (Ret (I32, r) st) /\ arrs st = umem out' lu' None
    | _ => True
    end.
  Proof.
    intros lu LU. pose proof (proj2 (dotted_iff (split_dots s) s) eq_refl) as (NE & ND & SJ). pose proof (labels_runs (split_dots s) [] [] None None None (repeat None 256) lu NE ND SJ LU ltac:(change (zlen (@nil Z)) with 0; lia) eq_refl) as L. change (zlen (@nil Z)) with 0 in L.
    set (tail := match nth 1 (flat (f_body c_to_unicode)) SSkip with _ => SSeq (nth 2 (flat (f_body c_to_unicode)) SSkip) (nth 3 (flat (f_body c_to_unicode)) SSkip) end).
    assert (PR : forall o, R (SSeq u_loop tail) (lstart None [] 0 None None (repeat None 256) lu) o -> R (f_body c_to_unicode) (us None None None None None None (repeat None 256) lu) o).
    { intros o Q. change (f_body c_to_unicode) with (SSeq (SExp (EAsg "out_len" (int 0))) (SSeq (SSeq (SExp (EAsg "e" (EAsg "s" (int 0)))) u_loop) tail)).
      eapply (runs_seq rt cl mono). { eapply (runs_exp rt cl). exists O. cc. reflexivity. } eapply (runs_init rt cl mono). { eapply (runs_exp rt cl). exists O. cc. reflexivity. } exact Q. }
    unfold unicode. unfold ends in L. destruct (unicode_labels (split_dots s) []) as [d|r| |]; cbn [bind]; try exact Logic.I.
    - destruct L as (rc' & p' & ll' & k' & rest & lu' & G & D255 & D256). pose proof (z0 _ d). unfold DOMAIN_MAX. replace (255 <? zlen d) with false by lia.
      destruct rest as [|y rest]; [change (zlen (@nil (option Z))) with 0 in D256; lia|].
      assert (DR : forall o, R tail (lstart rc' d p' ll' k' (y :: rest) lu') o -> R (f_body c_to_unicode) (us None None None None None None (repeat None 256) lu) o).
      { intros o Q. apply PR. eapply (runs_seq rt cl mono); [exact G|exact Q]. }
      change tail with (SSeq (SIf (EVar "output") (SSeq (SStore "out_u32" (EVar "out_len") (int 0)) (SStore "u32_cpy_alloc" (int 0) (EBin Add (EVar "out_len") (int 1)))) SSkip) (SReturn (int 0))) in DR. clear PR G tail. unfold lstart in DR.
      destruct ob eqn:OB.
      + eexists. exists rest, lu'. split.
        * apply DR. eapply (runs_seq rt cl mono); [|eapply (runs_ret rt cl); exists O; cc; reflexivity].
          eapply (runs_if rt cl mono); [exists O; cc; rewrite ?OB; reflexivity|]. cbn [snd Z.eqb].
          eapply (runs_seq rt cl mono). { exists O. split; [|discriminate]. cc. rewrite set_cell_out. cc. reflexivity. }
          exists O. split; [|discriminate]. cc. rewrite (u64_id (zlen d + 1)) by (unfold two64; lia). cc. reflexivity.
        * cbn [arrs]. rewrite (map_app (@Some Z) d), <- app_assoc. reflexivity.
      + eexists. exists (y :: rest), lu'. split.
        * apply DR. eapply (runs_seq rt cl mono); [|eapply (runs_ret rt cl); exists O; cc; reflexivity].
          eapply (runs_if rt cl mono); [exists O; cc; rewrite ?OB; reflexivity|]. cbn [snd Z.eqb]. apply runs_skip.
        * reflexivity.
    - destruct L as (st & o1 & u1 & G & H1). exists st, o1, u1. split; [|exact H1]. apply PR. eapply (runs_seq_stop rt cl); [exact G|exact Logic.I].
  Qed.
End Run.
