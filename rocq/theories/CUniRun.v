(** The text of the functions around idn2_to_unicode_8z4z. *)
From Coq Require Import String.
From Verif Require Import Base PunyBase Uenv DataTypes SpecUtf8 SpecNfc SpecLookup SpecUnicode Utf8 Utf8Proofs Puny Idna Lookup Api ApiProofs CostLabel NfcProofs
  CLang CLogic CLeaf CDecode CEncode CLabel CBidi CMapData CLookup CRegister CUnicode CWrap CUni SpecCPuny SpecCRegister SpecCWrap SpecCUni CLookupMap CLookupName CLabelFun CUnicodeRun CRegisterRun CWrapRun.
Local Open Scope string_scope.
Local Open Scope list_scope.
Local Open Scope Z_scope.
Arguments calls : simpl never.
Arguments types : simpl never.
Arguments uni_program : simpl never.
Arguments cstr : simpl never.
Arguments u32_strlen : simpl never.
Arguments Z.mul : simpl never.

Lemma strlen_front : forall a r, ~ In 0 a -> u32_strlen (map Some (a ++ [0]) ++ r) = Val (zlen a).
Proof.
  induction a as [|c a IH]; intros r N; [reflexivity|]. cbn [app map]. unfold u32_strlen; fold u32_strlen. replace (c =? 0) with false by (symmetry; apply Z.eqb_neq; intros ->; apply N; left; reflexivity).
  rewrite IH by (intros Q; apply N; right; exact Q). cbn [rbind]. rewrite zlen_cons. replace (zlen a + 1) with (1 + zlen a) by lia. reflexivity.
Qed.
Section Uni.
  Variables u4 u8 ul : list Z -> Z + list Z.
  Variables from to : list Z -> option (list Z).
  Notation P := (uni_program u4 u8 ul from to).
  Notation rt := (types P).
  Notation cl := (calls P 0).
  Notation R := (runs rt cl).
  Lemma un_mono : forall n m f vs a, (n <= m)%nat -> cl n f vs a <> Fuel -> cl m f vs a = cl n f vs a. Proof. intros; now apply calls_mono. Qed.
  Notation mono := un_mono.
  Lemma v_32 : forall n a b t l p m, cl n "u32_to_u8" [(a, p); (b, m)] [(t, l)] = on_part (fun s => size_or_null (u32_to_u8 s)) p m l. Proof. reflexivity. Qed.
  Lemma v_32_elt : forall n a b c t l p m k, cl n "u32_to_u8 result" [(a, p); (b, m); (c, k)] [(t, l)] = on_part (fun s => element (u32_to_u8 s) k) p m l. Proof. reflexivity. Qed.
  Lemma v_len32 : forall n t l, cl n "u32_strlen" [] [(t, l)] = u32_strlen l. Proof. reflexivity. Qed.
  Lemma v_from : forall n t l, cl n "u8_strconv_from_encoding" [] [(t, l)] = on_string (fun s => size_or_null (with_nul (from s))) l. Proof. reflexivity. Qed.
  Lemma v_from_elt : forall n a t l k, cl n "u8_strconv_from_encoding result" [(a, k)] [(t, l)] = on_string (fun s => element (with_nul (from s)) k) l. Proof. reflexivity. Qed.
  Lemma v_to : forall n t l, cl n "u8_strconv_to_encoding" [] [(t, l)] = on_string (fun s => size_or_null (with_nul (to s))) l. Proof. reflexivity. Qed.
  Lemma v_to_elt : forall n a t l k, cl n "u8_strconv_to_encoding result" [(a, k)] [(t, l)] = on_string (fun s => element (with_nul (to s)) k) l. Proof. reflexivity. Qed.
  (** A callee that gives [g s] for a string [s], with elements of type [ty]. *)
  Definition callee (c sz el : string) (ty : cty) (g : list Z -> Z + list Z) : Prop :=
    (rt c = I32 /\ forall n t l, cl n c [] [(t, l)] = on_string (fun s => rc_sum (g s)) l) /\
    (rt sz = U64 /\ forall n t l, cl n sz [] [(t, l)] = on_string (fun s => size_sum (g s)) l) /\
    (rt el = ty /\ forall n a t l k, cl n el [(a, k)] [(t, l)] = on_string (fun s => elt_sum (g s) k) l).
  Lemma callee4 : callee "idn2_to_unicode_8z4z" "idn2_to_unicode_8z4z size" "idn2_to_unicode_8z4z *output" U32 u4. Proof. repeat split. Qed.
  Lemma callee8 : callee "idn2_to_unicode_8z8z" "idn2_to_unicode_8z8z size" "idn2_to_unicode_8z8z *output" U8 u8. Proof. repeat split. Qed.
  Lemma calleel : callee "idn2_to_unicode_8zlz" "idn2_to_unicode_8zlz size" "idn2_to_unicode_8zlz *output" U8 ul. Proof. repeat split. Qed.

  Lemma fill_at : forall (ST : option Z -> list (option Z) -> cst) a n e ty te t,
    (forall k arr, R (SExp (EAsg "k" (int 0))) (ST k arr) (Norm (ST (Some 0) arr))) ->
    (forall k arr, 0 <= k < zlen t -> R (SExp (EPost "k")) (ST (Some k) arr) (Norm (ST (Some (k + 1)) arr))) ->
    (forall k arr, evals rt cl (EVar "k") (ST (Some k) arr) (U64, k) (ST (Some k) arr)) ->
    (forall k arr, assoc a (arrs (ST k arr)) = Some (ty, arr)) ->
    (forall k arr arr', mkst (vars (ST k arr)) (update a (fun _ => (ty, arr')) (arrs (ST k arr))) = ST k arr') ->
    (forall k arr, 0 <= k <= zlen t -> evals rt cl n (ST (Some k) arr) (U64, zlen t) (ST (Some k) arr)) ->
    (forall k arr b, 0 <= k < zlen t -> cell (map Some t) k = Val b -> evals rt cl e (ST (Some k) arr) (te, b) (ST (Some k) arr)) ->
    Forall (fun b => cast te ty b = b) t ->
    forall arr k, zlen t <= zlen arr -> zlen t < two64 -> R (fill a (int 0) n e) (ST k arr) (Norm (ST (Some (zlen t)) (in_front t arr))).
  Proof.
    intros ST a n e ty te t H0 H3 HK HI HU HN HE FT arr k LA L6. pose proof (z0 _ t) as T0. unfold in_front.
    refine (fill_runs rt cl mono ST a (int 0) n e 0 t (zlen arr) _ _ _ _ [] arr k eq_refl LA eq_refl).
    - intros. apply H0.
    - intros kk ar B E. eapply (ev_bin rt cl mono _ _ _ _ (U64, kk) (U64, zlen t)); [apply HK|apply HN; exact B|]. cbn. unfold cast. cbn. destruct (kk <? zlen t); reflexivity.
    - intros kk b ar ar' B C IB E SC. rewrite <- (HU (Some kk) ar ar').
      eapply (run_store rt cl mono (ST (Some kk) ar) a _ _ ty ar (U64, 0 + kk) (te, b) ar'); [apply HI| |apply HE; [exact B|exact C]|].
      + eapply (ev_bin rt cl mono _ _ _ _ (I32, 0) (U64, kk)); [exists O; reflexivity|apply HK|]. cbn. unfold cast. cbn. change (u64 0) with 0. replace (0 + kk) with kk by lia. rewrite ?(u64_id kk) by lia. reflexivity.
      + cbn [fst snd]. rewrite (proj1 (Forall_forall _ _) FT b IB). exact SC.
    - exact H3.
  Qed.
  Ltac ff := first [ intros; eapply (runs_exp rt cl); exists O; cc; reflexivity
                   | intros kk ? ?; eapply (runs_exp rt cl); exists O; cc; rewrite (u64_id (kk + 1)) by (unfold two64 in *; lia); reflexivity
                   | intros; exists O; reflexivity | reflexivity ].
  Ltac kk1 := intros; eapply (runs_exp rt cl); exists O; cc; match goal with |- context [u64 (?k + 1)] => rewrite (u64_id (k + 1)) by (unfold two64; lia) end; reflexivity.
  (** No long string, and no code that is 0. *)
  Definition given (r : Z + list Z) : Prop := match r with inl rc => rc <> 0 | inr t => zlen t < 4611686018427387904 end.
  Lemma same_cast : forall ty t, (ty = U8 \/ ty = U32) -> Forall (fun b => cast ty ty b = b) t.
  Proof. intros ty t [-> | ->]; apply Forall_forall; intros b _; reflexivity. Qed.
  Lemma hand_runs : forall (ST : option Z -> option Z -> list (option Z) -> cst) c sz el ty g inp d q (has_ : bool), callee c sz el ty g -> (ty = U8 \/ ty = U32) ->
    ~ In 0 d -> given (g d) ->
    (forall rc k name v, set_var "rc" (I32, v) (ST rc k name) = Val ((I32, v), ST (Some v) k name)) ->
    (forall v k name, get_var "rc" (ST (Some v) k name) = Val (I32, v)) ->
    (forall rc k name, get_var "has_output" (ST rc k name) = Val (I32, if has_ then 1 else 0)) ->
    (forall rc k name, pick [inp] (arrs (ST rc k name)) = Some [(U8, map Some (d ++ [0]) ++ q)]) ->
    (forall rc k arr, R (SExp (EAsg "k" (int 0))) (ST rc k arr) (Norm (ST rc (Some 0) arr))) ->
    (forall rc k arr, 0 <= k < 4611686018427387905 -> R (SExp (EPost "k")) (ST rc (Some k) arr) (Norm (ST rc (Some (k + 1)) arr))) ->
    (forall rc k arr, evals rt cl (EVar "k") (ST rc (Some k) arr) (U64, k) (ST rc (Some k) arr)) ->
    (forall rc k arr, assoc "output" (arrs (ST rc k arr)) = Some (ty, arr)) ->
    (forall rc k arr arr', mkst (vars (ST rc k arr)) (update "output" (fun _ => (ty, arr')) (arrs (ST rc k arr))) = ST rc k arr') ->
    forall rc k name, room (g d) name -> exists rc' k', R (hand c sz el inp) (ST rc k name) (Ret (I32, SpecCRegister.code_of (g d)) (ST rc' k' (inserted has_ (g d) name))).
  Proof.
    intros ST c sz el ty g inp d q has_ ((TC & C1) & (TS & C2) & (TE & C3)) TY N0 LK HS HR HH HP H0 H3 HK HI HU rc k name RM. set (r := g d) in *.
    assert (CD : cstr (map Some (d ++ [0]) ++ q) = Val d) by (apply cstr_front; exact N0).
    assert (CALL : R (SExp (EAsg "rc" (ECall c [inp] []))) (ST rc k name) (Norm (ST (Some (SpecCRegister.code_of r)) k name))).
    { eapply (run_set rt cl (ST rc k name) "rc" _ (I32, SpecCRegister.code_of r) ((I32, SpecCRegister.code_of r), ST (Some (SpecCRegister.code_of r)) k name)); [|apply HS].
      rewrite <- TC. apply (ev_call rt cl mono _ c [inp] [] [] _ [(U8, map Some (d ++ [0]) ++ q)]); [constructor|apply HP|]. intros m. rewrite C1. unfold on_string. rewrite CD. reflexivity. }
    assert (EQ : forall v kk nm, evals rt cl (EBin Eq (EVar "rc") (int IDN2_OK)) (ST (Some v) kk nm) (I32, if v =? 0 then 1 else 0) (ST (Some v) kk nm)).
    { intros v kk nm. eapply (ev_bin rt cl mono _ _ _ _ (I32, v) (I32, 0)); [exists O; cbn [eval]; rewrite HR; reflexivity|exists O; reflexivity|]. cbn. unfold cast. cbn. destruct (v =? 0); reflexivity. }
    assert (RET : forall v kk nm, R (SReturn (EVar "rc")) (ST (Some v) kk nm) (Ret (I32, v) (ST (Some v) kk nm))) by (intros; eapply (runs_ret rt cl); exists O; cbn [eval]; rewrite HR; reflexivity).
    unfold hand. destruct r as [e|t] eqn:ER; cbn [SpecCRegister.code_of inserted room given] in *.
    - exists (Some e), k. eapply (runs_seq rt cl mono); [exact CALL|]. eapply (runs_seq rt cl mono); [|apply RET]. eapply (runs_if rt cl mono); [apply EQ|]. cbn [snd]. replace (e =? 0) with false by lia. apply runs_skip.
    - pose proof (z0 _ t) as T0. assert (ZT : zlen (t ++ [0]) = zlen t + 1) by (rewrite zlen_app; reflexivity).
      destruct has_.
      + exists (Some 0), (Some (zlen (t ++ [0]))). eapply (runs_seq rt cl mono); [exact CALL|]. eapply (runs_seq rt cl mono); [|apply RET]. eapply (runs_if rt cl mono); [apply EQ|]. cbn [snd Z.eqb].
        eapply (runs_if rt cl mono). { exists O. cbn [eval]. rewrite HH. reflexivity. } cbn [snd Z.eqb]. rewrite <- front_string.
        apply (fill_at (fun kk arr => ST (Some 0) kk arr) "output" _ _ ty ty (t ++ [0])); [intros; apply H0|intros kk arr B; apply H3; lia|intros; apply HK|intros; apply HI|intros; apply HU| | |apply same_cast; exact TY|lia|unfold two64; lia].
        * intros kk arr B. rewrite <- TS. apply (ev_call rt cl mono _ sz [inp] [] [] _ [(U8, map Some (d ++ [0]) ++ q)]); [constructor|apply HP|]. intros m. rewrite C2. unfold on_string. rewrite CD. cbn [rbind]. fold r. rewrite ER. reflexivity.
        * intros kk arr b B C. rewrite <- TE. apply (ev_call rt cl mono _ el [inp] [EVar "k"] [(U64, kk)] _ [(U8, map Some (d ++ [0]) ++ q)]); [constructor; [apply HK|constructor]|apply HP|].
          intros m. rewrite C3. unfold on_string. rewrite CD. cbn [rbind]. fold r. rewrite ER. exact C.
      + exists (Some 0), k. eapply (runs_seq rt cl mono); [exact CALL|]. eapply (runs_seq rt cl mono); [|apply RET]. eapply (runs_if rt cl mono); [apply EQ|]. cbn [snd Z.eqb].
        eapply (runs_if rt cl mono). { exists O. cbn [eval]. rewrite HH. reflexivity. } apply runs_skip.
  Qed.

  Variable has_ : bool.
  Notation hv := (Some (if has_ then 1 else 0)).
  (** * idn2_to_unicode_4z4z *)
  Section A.
    Variables (l : list Z) (rest : list (option Z)).
    Definition amem (i8 o : list (option Z)) : list (string * carr) := [("input", (U32, map Some (l ++ [0]) ++ rest)); ("input_u8", (U8, i8)); ("output", (U32, o))].
    Definition as_ (rc k : option Z) (i8 o : list (option Z)) : cst := mkst [("has_output", (I32, hv)); ("rc", (I32, rc)); ("k", (U64, k))] (amem i8 o).
    Definition a_result : Z + list Z := match u32_to_u8 l with None => inl IDN2_ENCODING_ERROR | Some s => u4 s end.
    Lemma a_runs : ~ In 0 l -> zlen l < 1000000000000000000 -> (forall s, u32_to_u8 l = Some s -> given (u4 s)) -> forall i8 o, 4 * (zlen l + 1) <= zlen i8 -> room a_result o ->
      exists st i8', R (f_body c_4z4z) (as_ None None i8 o) (Ret (I32, SpecCRegister.code_of a_result) st) /\ arrs st = amem i8' (inserted has_ a_result o).
    Proof.
      intros N0 LL LF i8 o LU RM. unfold a_result in *. pose proof (z0 _ l) as L0. assert (ZL : zlen (l ++ [0]) = zlen l + 1) by (rewrite zlen_app; reflexivity).
      pose proof (strlen_front l rest N0) as SL. pose proof (part_front (l ++ [0]) rest) as PP. rewrite ZL in PP.
      set (size := ECall "u32_to_u8" ["input"] [int 0; EBin Add (ECall "u32_strlen" ["input"] []) (int 1)]).
      assert (SZ : forall rc k u nm, evals rt cl size (as_ rc k u nm) (I64, match u32_to_u8 (l ++ [0]) with Some a => zlen a | None => -1 end) (as_ rc k u nm)).
      { intros. exists O. unfold size. cc. rewrite v_len32, SL. cbn. change (rt "u32_strlen") with U64. cc. rewrite (u64_id (zlen l + 1)) by (unfold two64; lia). rewrite v_32. unfold on_part. rewrite PP. reflexivity. }
      destruct (u32_to_u8 l) as [s|] eqn:E8.
      2:{ assert (EN : u32_to_u8 (l ++ [0]) = None) by (rewrite u32_to_u8_app, E8; reflexivity). rewrite EN in SZ. exists (as_ None None i8 o), i8. split; [|reflexivity].
          eapply (runs_seq_stop rt cl); [|exact Logic.I]. eapply (runs_if rt cl mono). { eapply (ev_bin rt cl mono _ _ _ _ (I64, -1) (I32, -1)); [apply SZ|exists O; reflexivity|reflexivity]. } eapply (runs_ret rt cl). exists O. reflexivity. }
      assert (T : utf8 l s) by now apply u32_to_u8_iff. assert (EN : u32_to_u8 (l ++ [0]) = Some (s ++ [0])) by now apply conv0. rewrite EN in SZ.
      pose proof (u32_to_u8_len l s E8) as LS. pose proof (z0 _ s) as S0. assert (ZS : zlen (s ++ [0]) = zlen s + 1) by (rewrite zlen_app; reflexivity).
      assert (NS : ~ In 0 s). { pose proof (conv_str l s N0 T) as Q. rewrite upto0_term in Q. rewrite <- Q. apply upto0_no0. }
      set (X := in_front (s ++ [0]) i8).
      destruct (hand_runs (fun rc k nm => as_ rc k X nm) _ _ _ U32 u4 "input_u8" s (skipn (length (s ++ [0])) i8) has_ callee4 ltac:(auto) NS (LF s eq_refl)) with (rc := @None Z) (k := Some (zlen (s ++ [0]))) (name := o) as (rc' & k' & AR);
        [reflexivity|reflexivity|reflexivity|reflexivity|ff|kk1|ff|reflexivity|reflexivity|exact RM|].
      exists (as_ rc' k' X (inserted has_ (u4 s) o)), X. split; [|reflexivity].
      eapply (runs_seq rt cl mono). { eapply (runs_if rt cl mono). { eapply (ev_bin rt cl mono _ _ _ _ (I64, zlen (s ++ [0])) (I32, -1)); [apply SZ|exists O; reflexivity|reflexivity]. }
        cbn. unfold cast. cbn. replace (zlen (s ++ [0]) =? -1) with false by lia. cbn. apply runs_skip. }
      eapply (runs_seq rt cl mono); [|exact AR].
      apply (fill_at (fun kk arr => as_ None kk arr o) "input_u8" _ _ U8 U8 (s ++ [0])); [ff|kk1|ff|ff|ff| | |apply byte_cast|lia|unfold two64; lia].
      - intros kk arr B. destruct (SZ None (Some kk) arr o) as (m & E). exists m. unfold size in E. cbn [eval] in E |- *. rewrite E. cbn. unfold cast. cbn. rewrite (u64_id (zlen (s ++ [0]))) by (unfold two64; lia). reflexivity.
      - intros kk arr c B C. exists O. cc. rewrite v_len32, SL. cbn. change (rt "u32_strlen") with U64. cc. rewrite (u64_id (zlen l + 1)) by (unfold two64; lia). rewrite v_32_elt. unfold on_part. rewrite PP. cbn [rbind]. rewrite EN. cbn [element]. rewrite C. reflexivity.
    Qed.
  End A.
  (** * idn2_to_unicode_lzlz *)
  Section D.
    Variables (s : list Z) (rest : list (option Z)).
    Definition dmem (i8 o : list (option Z)) : list (string * carr) := [("input", (U8, map Some (s ++ [0]) ++ rest)); ("input_l8", (U8, i8)); ("output", (U8, o))].
    Definition ds_ (rc k : option Z) (i8 o : list (option Z)) : cst := mkst [("has_output", (I32, hv)); ("rc", (I32, rc)); ("k", (U64, k))] (dmem i8 o).
    Definition d_result : Z + list Z := match from s with None => inl IDN2_ICONV_FAIL | Some b => ul b end.
    Lemma d_runs : ~ In 0 s -> forall i8 o, (forall b, from s = Some b -> ~ In 0 b /\ zlen b < 4611686018427387904 /\ zlen b < zlen i8 /\ given (ul b)) -> room d_result o ->
      exists st i8', R (f_body c_lzlz) (ds_ None None i8 o) (Ret (I32, SpecCRegister.code_of d_result) st) /\ arrs st = dmem i8' (inserted has_ d_result o).
    Proof.
      intros N0 i8 o H RM. unfold d_result in *. pose proof (cstr_front s rest N0) as CS.
      assert (SZ : forall rc k u nm, evals rt cl (ECall "u8_strconv_from_encoding" ["input"] []) (ds_ rc k u nm) (I64, match with_nul (from s) with Some a => zlen a | None => -1 end) (ds_ rc k u nm)).
      { intros. exists O. cc. rewrite v_from. unfold on_string. rewrite CS. reflexivity. }
      destruct (from s) as [b|] eqn:FB; cbn [with_nul] in SZ.
      2:{ exists (ds_ None None i8 o), i8. split; [|reflexivity]. eapply (runs_seq_stop rt cl); [|exact Logic.I]. eapply (runs_if rt cl mono). { eapply (ev_bin rt cl mono _ _ _ _ (I64, -1) (I32, -1)); [apply SZ|exists O; reflexivity|reflexivity]. } eapply (runs_ret rt cl). exists O. reflexivity. }
      destruct (H b eq_refl) as (NB & LB & LU & LF). pose proof (z0 _ b) as B0. assert (ZB : zlen (b ++ [0]) = zlen b + 1) by (rewrite zlen_app; reflexivity).
      set (X := in_front (b ++ [0]) i8).
      destruct (hand_runs (fun rc k nm => ds_ rc k X nm) _ _ _ U8 ul "input_l8" b (skipn (length (b ++ [0])) i8) has_ calleel ltac:(auto) NB LF) with (rc := @None Z) (k := Some (zlen (b ++ [0]))) (name := o) as (rc' & k' & AR);
        [reflexivity|reflexivity|reflexivity|reflexivity|ff|kk1|ff|reflexivity|reflexivity|exact RM|].
      exists (ds_ rc' k' X (inserted has_ (ul b) o)), X. split; [|reflexivity].
      eapply (runs_seq rt cl mono). { eapply (runs_if rt cl mono). { eapply (ev_bin rt cl mono _ _ _ _ (I64, zlen (b ++ [0])) (I32, -1)); [apply SZ|exists O; reflexivity|reflexivity]. }
        cbn. unfold cast. cbn. replace (zlen (b ++ [0]) =? -1) with false by lia. cbn. apply runs_skip. }
      eapply (runs_seq rt cl mono); [|exact AR].
      apply (fill_at (fun kk arr => ds_ None kk arr o) "input_l8" _ _ U8 U8 (b ++ [0])); [ff|kk1|ff|ff|ff| | |apply byte_cast|lia|unfold two64; lia].
      - intros kk arr B. destruct (SZ None (Some kk) arr o) as (m & E). exists m. cbn [eval] in E |- *. rewrite E. cbn. unfold cast. cbn. rewrite (u64_id (zlen (b ++ [0]))) by (unfold two64; lia). reflexivity.
      - intros kk arr c B C. exists O. cc. rewrite v_from_elt. unfold on_string. rewrite CS. cbn [rbind]. rewrite FB. cbn [element with_nul]. rewrite C. reflexivity.
    Qed.
  End D.
  (** * idn2_to_unicode_8z8z *)
  Section B.
    Variables (s : list Z) (rest : list (option Z)).
    Definition bmem (o32 o8 o : list (option Z)) : list (string * carr) := [("input", (U8, map Some (s ++ [0]) ++ rest)); ("output_u32", (U32, o32)); ("output_u8", (U8, o8)); ("output", (U8, o))].
    Definition bs_ (rc len k : option Z) (o32 o8 o : list (option Z)) : cst := mkst [("has_output", (I32, hv)); ("rc", (I32, rc)); ("length", (U64, len)); ("k", (U64, k))] (bmem o32 o8 o).
    Definition b_result : Z + list Z := match u4 s with inl rc => inl rc | inr d => match u32_to_u8 d with None => inl IDN2_ENCODING_ERROR | Some b => inr b end end.
    Lemma b_runs : ~ In 0 s -> match u4 s with inl rc => rc <> 0 | inr d => ~ In 0 d /\ zlen d <= 255 end -> forall o32 o8 o, 256 <= zlen o32 -> 1024 <= zlen o8 -> room b_result o ->
      exists st o32' o8', R (f_body c_8z8z) (bs_ None None None o32 o8 o) (Ret (I32, SpecCRegister.code_of b_result) st) /\ arrs st = bmem o32' o8' (inserted has_ b_result o).
    Proof.
      intros N0 LF o32 o8 o L3 L8 RM. unfold b_result in *. pose proof (cstr_front s rest N0) as CS.
      assert (CALL : R (SExp (EAsg "rc" (ECall "idn2_to_unicode_8z4z" ["input"] []))) (bs_ None None None o32 o8 o) (Norm (bs_ (Some (match u4 s with inl rc => rc | inr _ => 0 end)) None None o32 o8 o))).
      { eapply (runs_exp rt cl). exists O. cc. rewrite (proj2 (proj1 callee4)). unfold on_string. rewrite CS. cbn. change (rt "idn2_to_unicode_8z4z") with I32. cc. reflexivity. }
      destruct (u4 s) as [e|d] eqn:E4.
      - exists (bs_ (Some e) None None o32 o8 o), o32, o8. split; [|reflexivity]. eapply (runs_seq rt cl mono); [exact CALL|]. eapply (runs_seq_stop rt cl); [|exact Logic.I]. eapply (runs_if rt cl mono); [exists O; cc; reflexivity|]. cbn [snd]. unfold IDN2_OK. replace (e =? 0) with false by lia. cbn. eapply (runs_ret rt cl). exists O. reflexivity.
      - destruct LF as (D0 & LD). pose proof (z0 _ d) as Z0. assert (ZD : zlen (d ++ [0]) = zlen d + 1) by (rewrite zlen_app; reflexivity).
        set (X := in_front (d ++ [0]) o32).
        assert (PRE : forall q r, R q (bs_ (Some 0) None (Some (zlen (d ++ [0]))) X o8 o) r ->
          R (SSeq (SExp (EAsg "rc" (ECall "idn2_to_unicode_8z4z" ["input"] []))) (SSeq (SIf (EBin Ne (EVar "rc") (int IDN2_OK)) (SReturn (EVar "rc")) SSkip) (SSeq (fill "output_u32" (int 0) (ECall "idn2_to_unicode_8z4z size" ["input"] []) (ECall "idn2_to_unicode_8z4z *output" ["input"] [EVar "k"])) q))) (bs_ None None None o32 o8 o) r).
        { intros q r H. eapply (runs_seq rt cl mono); [exact CALL|]. eapply (runs_seq rt cl mono). { eapply (runs_if rt cl mono); [exists O; cc; reflexivity|]. cbn. apply runs_skip. }
          eapply (runs_seq rt cl mono); [|exact H].
          apply (fill_at (fun kk arr => bs_ (Some 0) None kk arr o8 o) "output_u32" _ _ U32 U32 (d ++ [0])); [ff|kk1|ff|ff|ff| | |apply same_cast; auto|lia|unfold two64; lia].
          - intros kk arr B. exists O. cc. rewrite (proj2 (proj1 (proj2 callee4))). unfold on_string. rewrite CS. cbn [rbind]. rewrite E4. reflexivity.
          - intros kk arr b B C. exists O. cc. rewrite (proj2 (proj2 (proj2 callee4))). unfold on_string. rewrite CS. cbn [rbind]. rewrite E4. cbn [elt_sum]. rewrite C. reflexivity. }
        assert (XE : X = map Some (d ++ [0]) ++ skipn (length (d ++ [0])) o32) by reflexivity.
        pose proof (strlen_front d (skipn (length (d ++ [0])) o32) D0) as SL. rewrite <- XE in SL. pose proof (part_front (d ++ [0]) (skipn (length (d ++ [0])) o32)) as PP. rewrite ZD, <- XE in PP. clearbody X.
        set (size := ECall "u32_to_u8" ["output_u32"] [int 0; EBin Add (ECall "u32_strlen" ["output_u32"] []) (int 1)]).
        assert (SZ : forall rc len k u nm, evals rt cl size (bs_ rc len k X u nm) (I64, match u32_to_u8 (d ++ [0]) with Some a => zlen a | None => -1 end) (bs_ rc len k X u nm)).
        { intros. exists O. unfold size. cc. rewrite v_len32, SL. cbn. change (rt "u32_strlen") with U64. cc. rewrite (u64_id (zlen d + 1)) by (unfold two64; lia). rewrite v_32. unfold on_part. rewrite PP. reflexivity. }
        destruct (u32_to_u8 d) as [b|] eqn:E8.
        2:{ assert (EN : u32_to_u8 (d ++ [0]) = None) by (rewrite u32_to_u8_app, E8; reflexivity). rewrite EN in SZ. eexists _, X, o8. split; [|shelve]. apply PRE.
            eapply (runs_seq_stop rt cl); [|exact Logic.I]. eapply (runs_if rt cl mono). { eapply (ev_bin rt cl mono _ _ _ _ (I64, -1) (I32, -1)); [apply SZ|exists O; reflexivity|reflexivity]. } eapply (runs_ret rt cl). exists O. reflexivity. Unshelve. reflexivity. }
        assert (T : utf8 d b) by now apply u32_to_u8_iff. assert (EN : u32_to_u8 (d ++ [0]) = Some (b ++ [0])) by now apply conv0. rewrite EN in SZ.
        pose proof (u32_to_u8_len d b E8) as LB. pose proof (z0 _ b) as S0. assert (ZB : zlen (b ++ [0]) = zlen b + 1) by (rewrite zlen_app; reflexivity). cbn [SpecCRegister.code_of inserted room] in *.
        set (Y := in_front (b ++ [0]) o8).
        assert (YE : Y = map Some (b ++ [0]) ++ skipn (length (b ++ [0])) o8) by reflexivity.
        exists (bs_ (Some 0) (Some (zlen (b ++ [0]))) (Some (zlen (b ++ [0]))) X Y (if has_ then with_string b o else o)), X, Y. split; [|reflexivity]. apply PRE.
        eapply (runs_seq rt cl mono). { eapply (runs_if rt cl mono). { eapply (ev_bin rt cl mono _ _ _ _ (I64, zlen (b ++ [0])) (I32, -1)); [apply SZ|exists O; reflexivity|reflexivity]. }
          cbn. unfold cast. cbn. replace (zlen (b ++ [0]) =? -1) with false by lia. cbn. apply runs_skip. }
        eapply (runs_seq rt cl mono). { eapply (run_set rt cl _ "length" _ (I64, zlen (b ++ [0])) ((U64, zlen (b ++ [0])), bs_ (Some 0) (Some (zlen (b ++ [0]))) (Some (zlen (d ++ [0]))) X o8 o)); [apply SZ|]. cbn. unfold cast. cbn. rewrite (u64_id (zlen (b ++ [0]))) by (unfold two64; lia). reflexivity. }
        cbn [snd]. eapply (runs_seq rt cl mono).
        { apply (fill_at (fun kk arr => bs_ (Some 0) (Some (zlen (b ++ [0]))) kk X arr o) "output_u8" _ _ U8 U8 (b ++ [0])); [ff|kk1|ff|ff|ff|ff| |apply byte_cast|lia|unfold two64; lia].
          intros kk arr c B C. exists O. cc. rewrite v_len32, SL. cbn. change (rt "u32_strlen") with U64. cc. rewrite (u64_id (zlen d + 1)) by (unfold two64; lia). rewrite v_32_elt. unfold on_part. rewrite PP. cbn [rbind]. rewrite EN. cbn [element]. rewrite C. reflexivity. }
        eapply (runs_seq rt cl mono _ _ _ (bs_ (Some 0) (Some (zlen (b ++ [0]))) (Some (zlen (b ++ [0]))) X Y (if has_ then with_string b o else o))).
        { eapply (runs_if rt cl mono); [exists O; cc; reflexivity|]. destruct has_; cbn [snd Z.eqb]; [|apply runs_skip]. rewrite <- front_string.
          apply (fill_at (fun kk arr => bs_ (Some 0) (Some (zlen (b ++ [0]))) kk X Y arr) "output" _ _ U8 U8 (b ++ [0])); [ff|kk1|ff|ff|ff|ff| |apply byte_cast|lia|unfold two64; lia].
          intros kk arr c B C. eapply (ev_idx rt cl); [reflexivity|exists O; reflexivity|]. cbn [snd]. fold Y. rewrite YE. apply cell_front. exact C. }
        eapply (runs_ret rt cl). exists O. reflexivity.
    Qed.
  End B.
  (** * idn2_to_unicode_8zlz *)
  Section C.
    Variables (s : list Z) (rest : list (option Z)).
    Definition cmem (o8 o : list (option Z)) : list (string * carr) := [("input", (U8, map Some (s ++ [0]) ++ rest)); ("output_u8", (U8, o8)); ("output", (U8, o))].
    Definition cs_ (rc k : option Z) (o8 o : list (option Z)) : cst := mkst [("has_output", (I32, hv)); ("rc", (I32, rc)); ("k", (U64, k))] (cmem o8 o).
    Definition c_result : Z + list Z := match u8 s with inl rc => inl rc | inr b => match to b with None => inl IDN2_ENCODING_ERROR | Some x => inr x end end.
    Lemma c_runs : ~ In 0 s -> match u8 s with inl rc => rc <> 0 | inr b => ~ In 0 b /\ zlen b <= 1020 /\ forall x, to b = Some x -> zlen x < 4611686018427387904 end -> forall o8 o, 1024 <= zlen o8 -> room c_result o ->
      exists st o8', R (f_body c_8zlz) (cs_ None None o8 o) (Ret (I32, SpecCRegister.code_of c_result) st) /\ arrs st = cmem o8' (inserted has_ c_result o).
    Proof.
      intros N0 LF o8 o L8 RM. unfold c_result in *. pose proof (cstr_front s rest N0) as CS.
      assert (CALL : R (SExp (EAsg "rc" (ECall "idn2_to_unicode_8z8z" ["input"] []))) (cs_ None None o8 o) (Norm (cs_ (Some (match u8 s with inl rc => rc | inr _ => 0 end)) None o8 o))).
      { eapply (runs_exp rt cl). exists O. cc. rewrite (proj2 (proj1 callee8)). unfold on_string. rewrite CS. cbn. change (rt "idn2_to_unicode_8z8z") with I32. cc. reflexivity. }
      destruct (u8 s) as [e|b] eqn:E4.
      - exists (cs_ (Some e) None o8 o), o8. split; [|reflexivity]. eapply (runs_seq rt cl mono); [exact CALL|]. eapply (runs_seq_stop rt cl); [|exact Logic.I]. eapply (runs_if rt cl mono); [exists O; cc; reflexivity|]. cbn [snd]. unfold IDN2_OK. replace (e =? 0) with false by lia. cbn. eapply (runs_ret rt cl). exists O. reflexivity.
      - destruct LF as (D0 & LD & LX). pose proof (z0 _ b) as Z0. assert (ZD : zlen (b ++ [0]) = zlen b + 1) by (rewrite zlen_app; reflexivity).
        set (X := in_front (b ++ [0]) o8).
        assert (PRE : forall q r, R q (cs_ (Some 0) (Some (zlen (b ++ [0]))) X o) r ->
          R (SSeq (SExp (EAsg "rc" (ECall "idn2_to_unicode_8z8z" ["input"] []))) (SSeq (SIf (EBin Ne (EVar "rc") (int IDN2_OK)) (SReturn (EVar "rc")) SSkip) (SSeq (fill "output_u8" (int 0) (ECall "idn2_to_unicode_8z8z size" ["input"] []) (ECall "idn2_to_unicode_8z8z *output" ["input"] [EVar "k"])) q))) (cs_ None None o8 o) r).
        { intros q r H. eapply (runs_seq rt cl mono); [exact CALL|]. eapply (runs_seq rt cl mono). { eapply (runs_if rt cl mono); [exists O; cc; reflexivity|]. cbn. apply runs_skip. }
          eapply (runs_seq rt cl mono); [|exact H].
          apply (fill_at (fun kk arr => cs_ (Some 0) kk arr o) "output_u8" _ _ U8 U8 (b ++ [0])); [ff|kk1|ff|ff|ff| | |apply same_cast; auto|lia|unfold two64; lia].
          - intros kk arr B. exists O. cc. rewrite (proj2 (proj1 (proj2 callee8))). unfold on_string. rewrite CS. cbn [rbind]. rewrite E4. reflexivity.
          - intros kk arr c B C. exists O. cc. rewrite (proj2 (proj2 (proj2 callee8))). unfold on_string. rewrite CS. cbn [rbind]. rewrite E4. cbn [elt_sum]. rewrite C. reflexivity. }
        assert (CX : cstr X = Val b) by (apply (cstr_front b (skipn (length (b ++ [0])) o8) D0)). clearbody X.
        assert (SZ : forall rc k nm, evals rt cl (ECall "u8_strconv_to_encoding" ["output_u8"] []) (cs_ rc k X nm) (I64, match with_nul (to b) with Some a => zlen a | None => -1 end) (cs_ rc k X nm)).
        { intros. exists O. cc. rewrite v_to. unfold on_string. rewrite CX. reflexivity. }
        destruct (to b) as [x|] eqn:ET; cbn [with_nul] in SZ.
        2:{ eexists _, X. split; [apply PRE|shelve]. eapply (runs_seq rt cl mono).
            - eapply (runs_if rt cl mono). { eapply (ev_bin rt cl mono _ _ _ _ (I64, -1) (I32, -1)); [apply SZ|exists O; reflexivity|reflexivity]. } cbn [snd Z.eqb]. eapply (runs_exp rt cl). exists O. cc. reflexivity.
            - eapply (runs_ret rt cl). exists O. reflexivity. Unshelve. reflexivity. }
        specialize (LX x eq_refl). pose proof (z0 _ x) as S0. assert (ZB : zlen (x ++ [0]) = zlen x + 1) by (rewrite zlen_app; reflexivity). cbn [SpecCRegister.code_of inserted room] in *.
        exists (cs_ (Some 0) (Some (if has_ then zlen (x ++ [0]) else zlen (b ++ [0]))) X (if has_ then with_string x o else o)), X. split; [|reflexivity]. apply PRE.
        eapply (runs_seq rt cl mono _ _ _ (cs_ (Some 0) (Some (if has_ then zlen (x ++ [0]) else zlen (b ++ [0]))) X (if has_ then with_string x o else o))); [|eapply (runs_ret rt cl); exists O; reflexivity].
        eapply (runs_if rt cl mono). { eapply (ev_bin rt cl mono _ _ _ _ (I64, zlen (x ++ [0])) (I32, -1)); [apply SZ|exists O; reflexivity|reflexivity]. }
        cbn. unfold cast. cbn. replace (zlen (x ++ [0]) =? -1) with false by lia. cbn.
        eapply (runs_seq rt cl mono _ _ _ (cs_ (Some 0) (Some (if has_ then zlen (x ++ [0]) else zlen (b ++ [0]))) X (if has_ then with_string x o else o))); [|eapply (runs_exp rt cl); exists O; cc; reflexivity].
        eapply (runs_if rt cl mono); [exists O; cc; reflexivity|]. destruct has_; cbn [snd Z.eqb]; [|apply runs_skip]. rewrite <- front_string.
        apply (fill_at (fun kk arr => cs_ (Some 0) kk X arr) "output" _ _ U8 U8 (x ++ [0])); [ff|kk1|ff|ff|ff| | |apply byte_cast|lia|unfold two64; lia].
        + intros kk arr B. destruct (SZ (Some 0) (Some kk) arr) as (m & E). exists m. cbn [eval] in E |- *. rewrite E. cbn. unfold cast. cbn. rewrite (u64_id (zlen (x ++ [0]))) by (unfold two64; lia). reflexivity.
        + intros kk arr c B C. exists O. cc. rewrite v_to_elt. unfold on_string. rewrite CX. cbn [rbind]. rewrite ET. cbn [element with_nul]. rewrite C. reflexivity.
    Qed.
  End C.
End Uni.
