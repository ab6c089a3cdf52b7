(** The text of register.c. *)
From Coq Require Import String.
From Verif Require Import Base PunyBase Uenv DataTypes SpecUtf8 SpecNfc SpecLookup SpecRegister Utf8 Utf8Proofs Puny Idna Lookup Api ApiProofs Register LabelProofs LookupIdem CostPuny CostLabel NonZero RegisterProofs
  CLang CLogic CLeaf CDecode CEncode CLabel CBidi CMapData CLookup CRegister SpecCPuny SpecCRegister CLookupMap CLookupName CLabelFun CUnicodeRun.
Local Open Scope string_scope.
Local Open Scope list_scope.
Local Open Scope Z_scope.
Arguments calls : simpl never.
Arguments types : simpl never.
Arguments register_program : simpl never.
Arguments Z.land : simpl never.
Arguments Z.lor : simpl never.
Arguments ace_prefix : simpl never.
Arguments cstr : simpl never.

Lemma cstr_front : forall d q, ~ In 0 d -> cstr (map Some (d ++ [0]) ++ q) = Val d.
Proof.
  induction d as [|c d IH]; intros q N; [reflexivity|]. cbn [app map cstr]. unfold cstr; fold cstr. replace (c =? 0) with false by (symmetry; apply Z.eqb_neq; intros ->; apply N; left; reflexivity).
  rewrite IH by (intros Q; apply N; right; exact Q). reflexivity.
Qed.
Lemma cstr_whole : forall d, ~ In 0 d -> cstr (map Some (d ++ [0])) = Val d.
Proof. intros d N. pose proof (cstr_front d [] N) as H. rewrite app_nil_r in H. exact H. Qed.
Lemma upto0_cut : forall t, exists q, t ++ [0] = (upto0 t ++ [0]) ++ q.
Proof.
  induction t as [|c t (q & IH)]; [exists []; reflexivity|]. cbn [upto0 app]. destruct (c =? 0) eqn:E; [|exists q; rewrite IH; reflexivity]. apply Z.eqb_eq in E. subst c. exists (t ++ [0]). reflexivity.
Qed.

Fixpoint after (n : nat) (s : stmt) : stmt := match n, s with S n, SSeq _ r => after n r | _, _ => s end.

Section Reg.
  Variable U : uenv.
  Variable reg : list Z -> Z + list Z.
  Notation P := (register_program U reg).
  Notation rt := (types P).
  Notation cl := (calls P 0).
  Notation R := (runs rt cl).
  Lemma rg_mono : forall n m f vs a, (n <= m)%nat -> cl n f vs a <> Fuel -> cl m f vs a = cl n f vs a. Proof. intros; now apply calls_mono. Qed.
  Notation mono := rg_mono.
  Lemma g_strlen : forall n t l, cl n "strlen" [] [(t, l)] = rbind (cstr l) (fun s => Val (zlen s)). Proof. reflexivity. Qed.
  Lemma g_strcmp : forall n t u l o, cl n "strcmp" [] [(t, l); (u, o)] = rbind (cstr l) (fun s => rbind (cstr o) (fun t => Val (if list_eqb s t then 0 else 1))). Proof. reflexivity. Qed.
  Lemma g_reg : forall n t l, cl n "idn2_register_u8" [] [(t, l)] = rbind (cstr l) (fun s => Val (match reg s with inl rc => rc | inr _ => 0 end)). Proof. reflexivity. Qed.
  Lemma g_reg_len : forall n t l, cl n "idn2_register_u8 tmp size" [] [(t, l)] = rbind (cstr l) (fun s => match reg s with inr t => Val (zlen (t ++ [0])) | inl _ => UB end). Proof. reflexivity. Qed.
  Lemma g_reg_elt : forall n a t l k, cl n "idn2_register_u8 tmp" [(a, k)] [(t, l)] = rbind (cstr l) (fun s => match reg s with inr t => cell (map Some (t ++ [0])) k | inl _ => UB end). Proof. reflexivity. Qed.
  Lemma g_ascii : forall n a t l m, cl n "_idn2_ascii_p" [(a, m)] [(t, l)] = on_part (fun s => Val (if ascii_p s then 1 else 0)) 0 m l. Proof. reflexivity. Qed.
  Lemma g_dec : forall n a b c t u l o p m x, cl n "punycode_decode" [(a, p); (b, m); (c, x)] [(t, l); (u, o)] = rc_of (dec_call x o) p m l. Proof. reflexivity. Qed.
  Lemma g_dec_len : forall n a b c t u l o p m x, cl n "punycode_decode *output_length" [(a, p); (b, m); (c, x)] [(t, l); (u, o)] = len_of (dec_call x o) p m l. Proof. reflexivity. Qed.
  Lemma g_dec_elt : forall n a b c d t u l o p m x k, cl n "punycode_decode output" [(a, p); (b, m); (c, x); (d, k)] [(t, l); (u, o)] = elt_of (dec_call x o) p m k l. Proof. reflexivity. Qed.
  Lemma g_u8 : forall n a b t l p m, cl n "u32_to_u8" [(a, p); (b, m)] [(t, l)] = on_part (fun s => Val (match u32_to_u8 s with Some a => zlen a | None => -1 end)) p m l. Proof. reflexivity. Qed.
  Lemma g_u8_elt : forall n a b c t l p m k, cl n "u32_to_u8 result" [(a, p); (b, m); (c, k)] [(t, l)] = on_part (fun s => rbind (ace_of s) (fun a => cell (map Some a) k)) p m l. Proof. reflexivity. Qed.
  Lemma g_nfc : forall n a b t l m q, cl n "_idn2_u8_to_u32_nfc" [(a, m); (b, q)] [(t, l)] = rc_of (nfc_call U q) 0 m l. Proof. reflexivity. Qed.
  Lemma g_nfc_len : forall n a b t l m q, cl n "_idn2_u8_to_u32_nfc *outlen" [(a, m); (b, q)] [(t, l)] = len_of (nfc_call U q) 0 m l. Proof. reflexivity. Qed.
  Lemma g_nfc_elt : forall n a b c t l m q k, cl n "_idn2_u8_to_u32_nfc *out" [(a, m); (b, q); (c, k)] [(t, l)] = elt_of (nfc_call U q) 0 m k l. Proof. reflexivity. Qed.
  Lemma g_enc : forall n a b c t u l o m x i, cl n "punycode_encode" [(a, m); (b, x); (c, i)] [(t, l); (u, o)] = rc_of (enc_call x i o) 0 m l. Proof. reflexivity. Qed.
  Lemma g_enc_len : forall n a b c t u l o m x i, cl n "punycode_encode *output_length" [(a, m); (b, x); (c, i)] [(t, l); (u, o)] = len_of (enc_call x i o) 0 m l. Proof. reflexivity. Qed.
  Lemma g_enc_elt : forall n a b c d t u l o m x i k, cl n "punycode_encode output" [(a, m); (b, x); (c, i); (d, k)] [(t, l); (u, o)] = elt_of (enc_call x i o) 0 m k l. Proof. reflexivity. Qed.
  Lemma g_test : forall n a b c t l w p m, cl n "_idn2_label_test" [(a, w); (b, p); (c, m)] [(t, l)] = on_part (fun s => code (label_test U w s)) p m l. Proof. reflexivity. Qed.

  Lemma strdup_runs : forall (ST : option Z -> list (option Z) -> cst) a d q,
    ~ In 0 d -> zlen d < 4611686018427387904 ->
    (forall k arr, R (SExp (EAsg "k" (int 0))) (ST k arr) (Norm (ST (Some 0) arr))) ->
    (forall k arr, get_var "k" (ST (Some k) arr) = Val (U64, k)) ->
    (forall k arr, 0 <= k <= zlen d -> R (SExp (EPost "k")) (ST (Some k) arr) (Norm (ST (Some (k + 1)) arr))) ->
    (forall k arr, pick [a] (arrs (ST k arr)) = Some [(U8, map Some (d ++ [0]) ++ q)] /\ assoc a (arrs (ST k arr)) = Some (U8, map Some (d ++ [0]) ++ q)) ->
    (forall k arr, assoc "insertname" (arrs (ST k arr)) = Some (U8, arr)) ->
    (forall k arr arr', mkst (vars (ST k arr)) (update "insertname" (fun _ => (U8, arr')) (arrs (ST k arr))) = ST k arr') ->
    forall k name, zlen d + 1 <= zlen name -> R (strdup a) (ST k name) (Norm (ST (Some (zlen d + 1)) (with_string d name))).
  Proof.
    intros ST a d q N0 LD H0 HK H3 HA HI HU k name LN. pose proof (z0 _ d) as D0. assert (ZD : zlen (d ++ [0]) = zlen d + 1) by (rewrite zlen_app; reflexivity).
    assert (EK : forall kk arr, evals rt cl (EVar "k") (ST (Some kk) arr) (U64, kk) (ST (Some kk) arr)) by (intros kk arr; exists O; cbn [eval]; rewrite HK; reflexivity).
    assert (EL : forall kk arr, evals rt cl (EBin Add (ECall "strlen" [a] []) (int 1)) (ST (Some kk) arr) (U64, zlen d + 1) (ST (Some kk) arr)).
    { intros kk arr. eapply (ev_bin rt cl mono _ _ _ _ (U64, zlen d) (I32, 1)); [apply (ev_call rt cl mono _ "strlen" [a] [] [] (zlen d) [(U8, map Some (d ++ [0]) ++ q)]); [constructor|apply HA|intros n; rewrite g_strlen, cstr_front by exact N0; reflexivity]|exists O; reflexivity|].
      cbn. unfold cast. cbn. change (u64 1) with 1. rewrite (u64_id (zlen d + 1)) by (unfold two64; lia). reflexivity. }
    unfold strdup, with_string. rewrite <- ZD. replace (S (length d)) with (length (d ++ [0])) by (rewrite app_length; cbn; lia).
    refine (fill_runs rt cl mono ST "insertname" (int 0) _ _ 0 (d ++ [0]) (zlen name) _ _ _ _ [] name k eq_refl _ eq_refl); [| | | |lia].
    - intros kk arr _. apply H0.
    - intros kk arr B E. eapply (ev_bin rt cl mono _ _ _ _ (U64, kk) (U64, zlen d + 1)); [apply EK|apply EL|]. cbn. unfold cast. cbn. rewrite ZD. destruct (kk <? zlen d + 1); reflexivity.
    - intros kk b arr arr' B C IB E SC. rewrite <- (HU (Some kk) arr arr'). eapply (run_store rt cl mono (ST (Some kk) arr) "insertname" _ _ U8 arr (U64, 0 + kk) (U8, b) arr'); [apply HI| | |exact SC].
      + eapply (ev_bin rt cl mono); [exists O; reflexivity|apply EK|]. cbn. unfold cast. cbn. change (u64 0) with 0. replace (0 + kk) with kk by lia. rewrite ?(u64_id kk) by (unfold two64; lia). reflexivity.
      + eapply (ev_idx rt cl); [apply HA|apply EK|]. cbn [snd]. apply cell_front. exact C.
    - intros kk arr B. apply H3. lia.
  Qed.

  (** With a U-label only. *)
  Section Ulabel.
    Variables (s : list Z) (f : Z) (has_ : bool).
    Hypothesis K : nfc_ok U.
    Hypothesis FF : at_most_fourfold U.
    Hypothesis CS : c_string s.
    Hypothesis LS : 4 * zlen s < 4611686018427387904.
    Hypothesis F : 0 <= f < 2147483648.
    Definition rmem (u32 tmp name : list (option Z)) : list (string * carr) := [("ulabel", (U8, map Some (s ++ [0]))); ("u32", (U32, u32)); ("tmp", (U8, tmp)); ("insertname", (U8, name))].
    Definition rs (ul ul32 tm rc k : option Z) (u32 tmp name : list (option Z)) : cst :=
      mkst [("flags", (I32, Some f)); ("has_insertname", (I32, Some (if has_ then 1 else 0))); ("ulabellen", (U64, ul)); ("u32len", (U64, ul32)); ("tmpl", (U64, tm)); ("rc", (I32, rc)); ("k", (U64, k))] (rmem u32 tmp name).
    Lemma s_no0 : ~ In 0 s. Proof. intros Q. apply (proj1 (Forall_forall _ _) CS) in Q. lia. Qed.
    Lemma s_len : 0 <= zlen s < 4611686018427387904. Proof. pose proof (z0 _ s). lia. Qed.
    Lemma part_s : part (map Some (s ++ [0])) 0 (zlen s) = Val s.
    Proof. rewrite map_app. exact (part_front s _). Qed.
    Lemma dup_runs : forall a d q ul ul32 tm rc k u32 tmp name, (a = "ulabel" /\ s = d /\ q = []) \/ (a = "tmp" /\ tmp = map Some (d ++ [0]) ++ q) -> ~ In 0 d -> zlen d <= 63 -> zlen name = 64 ->
      exists k', R (SIf (EVar "has_insertname") (strdup a) SSkip) (rs ul ul32 tm rc k u32 tmp name) (Norm (rs ul ul32 tm rc k' u32 tmp (inserted has_ (inr d) name))).
    Proof.
      intros a d q ul ul32 tm rc k u32 tmp name HA N0 LD LN.
      assert (E : evals rt cl (EVar "has_insertname") (rs ul ul32 tm rc k u32 tmp name) (I32, if has_ then 1 else 0) (rs ul ul32 tm rc k u32 tmp name)) by (exists O; reflexivity).
      unfold inserted. destruct has_ eqn:HB.
      - exists (Some (zlen d + 1)). eapply (runs_if rt cl mono); [exact E|]. cbn [snd Z.eqb].
        apply (strdup_runs (fun kk arr => rs ul ul32 tm rc kk u32 tmp arr) a d q N0); [lia| | | | | | |lia].
        + intros. eapply (runs_exp rt cl). exists O. cc. reflexivity.
        + reflexivity.
        + intros kk arr B. eapply (runs_exp rt cl). exists O. cc. rewrite (u64_id (kk + 1)) by (unfold two64; lia). reflexivity.
        + intros kk arr. destruct HA as [(-> & E1 & ->)|(-> & ->)]; [rewrite app_nil_r, <- E1|]; split; reflexivity.
        + reflexivity.
        + reflexivity.
      - exists k. eapply (runs_if rt cl mono); [exact E|]. apply runs_skip.
    Qed.
    Notation b := (has f IDN2_NFC_INPUT).
    Notation two := [EVar "ulabellen"; EBin BAnd (EVar "flags") (int IDN2_NFC_INPUT)].
    Definition u_done (e : Z) (r : Z + list Z) (name : list (option Z)) (st0 : cst) (body : stmt) : Prop :=
      exists st u32' tmp', R body st0 (Ret (I32, e) st) /\ arrs st = rmem u32' tmp' (inserted has_ r name).
    Definition u_put : stmt := Eval cbn -[fill strdup int] in after 8 (f_body c_register_u).
    Lemma u_put_runs : forall p u32 rest tmp name ul32 tm rc k, u32 = map Some p ++ rest -> ul32 = zlen p -> zlen p < 4611686018427387904 -> zlen tmp = 64 -> zlen name = 64 ->
      match puny_encode p 59 60 with
      | Ok e => zlen e <= 59 -> u_done 0 (inr (upto0 (ace_prefix ++ e))) name (rs (Some (zlen s)) (Some ul32) tm rc k u32 tmp name) u_put
      | Fail e => u_done e (inl e) name (rs (Some (zlen s)) (Some ul32) tm rc k u32 tmp name) u_put
      | _ => True
      end.
    Proof.
      intros p u32 rest tmp name ul32 tm rc k -> -> LP LT LN. pose proof (z0 _ p) as P0. pose proof s_len as SL.
      destruct tmp as [|a0 [|a1 [|a2 [|a3 r] ] ] ]; try (exfalso; unfold zlen in LT; cbn in LT; lia). assert (LR : zlen r = 60) by (rewrite !zlen_cons in LT; lia). clear LT.
      set (D := Some 120 :: Some 110 :: Some 45 :: Some 45 :: r). assert (ZD : zlen D - 4 = 60) by (unfold D; rewrite !zlen_cons; lia).
      set (X := map Some p ++ rest). pose proof (part_front p rest) as PP. fold X in PP.
      assert (PR : forall st o, R st (rs (Some (zlen s)) (Some (zlen p)) (Some 59) rc k X D name) o ->
        R (SSeq (SStore "tmp" (int 0) (int 120)) (SSeq (SStore "tmp" (int 1) (int 110)) (SSeq (SStore "tmp" (int 2) (int 45)) (SSeq (SStore "tmp" (int 3) (int 45)) (SSeq (SExp (EAsg "tmpl" (EBin Sub (int 63) (int 4)))) st)))))
          (rs (Some (zlen s)) (Some (zlen p)) tm rc k X (a0 :: a1 :: a2 :: a3 :: r) name) o).
      { intros st o H.
        eapply (runs_seq rt cl mono). { exists O. split; [|discriminate]. cc. rewrite (set_c [] a0 (a1 :: a2 :: a3 :: r) _ 0 eq_refl). cbn. reflexivity. }
        eapply (runs_seq rt cl mono). { exists O. split; [|discriminate]. cc. rewrite (set_c [Some 120] a1 (a2 :: a3 :: r) _ 1 eq_refl). cbn. reflexivity. }
        eapply (runs_seq rt cl mono). { exists O. split; [|discriminate]. cc. rewrite (set_c [Some 120; Some 110] a2 (a3 :: r) _ 2 eq_refl). cbn. reflexivity. }
        eapply (runs_seq rt cl mono). { exists O. split; [|discriminate]. cc. rewrite (set_c [Some 120; Some 110; Some 45] a3 r _ 3 eq_refl). cbn. reflexivity. }
        eapply (runs_seq rt cl mono). { eapply (runs_exp rt cl). exists O. cc. reflexivity. } exact H. }
      assert (ENC : forall DD, zlen DD = zlen D -> enc_call 59 4 DD p = puny_encode p 59 60) by (intros DD E; unfold enc_call; rewrite E, ZD; reflexivity).
      unfold u_put. pose proof (nz_encode p 59 60) as NZ1. destruct (puny_encode p 59 60) as [enc|e| |] eqn:Q; [| |exact Logic.I..].
      - intros LE. pose proof (z0 _ enc) as E0. assert (LNC : forall DD, zlen DD = zlen D -> len_of (enc_call 59 4 DD) 0 (zlen p) X = Val (zlen enc)) by (intros DD E; apply (len_part _ _ _ _ p enc PP); exact (ENC DD E)).
        set (DD := map Some (ace_prefix ++ enc) ++ skipn (length enc) r).
        assert (ZZ : zlen DD = zlen D). { unfold DD, D. rewrite zlen_app, zlen_map, zlen_app, !zlen_cons. change (zlen ace_prefix) with 4. unfold zlen in *. rewrite skipn_length. lia. }
        assert (exists x y, skipn (length enc) r = x :: y) as (x & y & SK). { destruct (skipn (length enc) r) as [|x y] eqn:E; [|eauto]. exfalso. apply (f_equal (@length _)) in E. rewrite skipn_length in E. unfold zlen in *. cbn in E. lia. }
        destruct (upto0_cut (ace_prefix ++ enc)) as (q & CUT).
        set (DN := map Some ((ace_prefix ++ enc) ++ [0]) ++ y).
        assert (NDN : DN = map Some (upto0 (ace_prefix ++ enc) ++ [0]) ++ (map Some q ++ y)) by (unfold DN; rewrite CUT, map_app, <- app_assoc; reflexivity).
        assert (U0 : ~ In 0 (upto0 (ace_prefix ++ enc)) /\ zlen (upto0 (ace_prefix ++ enc)) <= 63).
        { split. { clear. induction (ace_prefix ++ enc) as [|c l IH]; [tauto|]. cbn [upto0]. destruct (c =? 0) eqn:Q; [tauto|]. cbn [In]. intros [W|W]; [lia|tauto]. }
          apply (f_equal zlen) in CUT. rewrite !zlen_app in CUT. change (zlen ace_prefix) with 4 in CUT. change (zlen [0]) with 1 in CUT. pose proof (z0 _ q). lia. }
        destruct (dup_runs "tmp" (upto0 (ace_prefix ++ enc)) (map Some q ++ y) (Some (zlen s)) (Some (zlen p)) (Some (zlen enc)) (Some 0) (Some (zlen enc)) X DN name (or_intror (conj eq_refl NDN)) (proj1 U0) (proj2 U0) LN) as (k' & DR).
        exists (rs (Some (zlen s)) (Some (zlen p)) (Some (zlen enc)) (Some 0) k' X DN (inserted has_ (inr (upto0 (ace_prefix ++ enc))) name)), X, DN. split; [|reflexivity]. apply PR.
        eapply (runs_seq rt cl mono). { eapply (runs_exp rt cl). exists O. cc. rewrite g_enc, (rc_part _ _ _ _ _ PP), (ENC D eq_refl). cbn. change (rt "punycode_encode") with I32. cc. reflexivity. }
        eapply (runs_seq rt cl mono). { eapply (runs_if rt cl mono); [exists O; cc; reflexivity|]. apply runs_skip. }
        eapply (runs_seq rt cl mono).
        { change D with (map Some ace_prefix ++ r).
          apply (fill_runs rt cl mono (fun kk DD => rs (Some (zlen s)) (Some (zlen p)) (Some 59) (Some 0) kk X DD name) "tmp" (int 4) _ _ 4 enc (zlen D)); [| | | |reflexivity|lia|reflexivity].
          - intros kk arr _. eapply (runs_exp rt cl). exists O. cc. reflexivity.
          - intros kk arr B E. exists O. cc. rewrite g_enc_len, (LNC arr E). reflexivity.
          - intros kk z arr arr' B C IY E SC. exists O. split; [|discriminate]. cc. rewrite (u64_id (4 + kk)) by (unfold two64; lia). rewrite g_enc_elt, (elt_part _ _ _ _ _ p enc PP) by exact (ENC arr E). rewrite C. cbn.
            change (rt "punycode_encode output") with U8. cbn. rewrite SC. reflexivity.
          - intros kk arr B. eapply (runs_exp rt cl). exists O. cc. rewrite (u64_id (kk + 1)) by (unfold two64; lia). reflexivity. }
        rewrite app_assoc, <- map_app. fold DD.
        eapply (runs_seq rt cl mono). { eapply (runs_exp rt cl). exists O. cc. rewrite g_enc_len, (LNC DD ZZ). cbn. change (rt "punycode_encode *output_length") with U64. cc. reflexivity. }
        assert (SD : set_cell DD (4 + zlen enc) 0 = Val DN).
        { unfold DD, DN. rewrite SK. rewrite (set_c _ x y 0 (4 + zlen enc)) by (rewrite zlen_map, zlen_app; reflexivity). rewrite (map_app _ (ace_prefix ++ enc)), <- app_assoc. reflexivity. }
        eapply (runs_seq rt cl mono). { exists O. split; [|discriminate]. cc. rewrite (u64_id (4 + zlen enc)) by (unfold two64; lia). change (0 mod 256) with 0. rewrite SD. cc. reflexivity. }
        eapply (runs_seq rt cl mono). { exact DR. }
        eapply (runs_ret rt cl). exists O. cc. reflexivity.
      - exists (rs (Some (zlen s)) (Some (zlen p)) (Some 59) (Some e) k X D name), X, D. split; [|reflexivity]. apply PR.
        eapply (runs_seq rt cl mono). { eapply (runs_exp rt cl). exists O. cc. rewrite g_enc, (rc_part _ _ _ _ _ PP), (ENC D eq_refl). cbn. change (rt "punycode_encode") with I32. cc. reflexivity. }
        eapply (runs_seq_stop rt cl); [|exact Logic.I]. eapply (runs_if rt cl mono); [exists O; cc; reflexivity|]. cbn [snd]. pose proof (NZ1 e eq_refl) as E0. unfold IDN2_OK in *. replace (e =? 0) with false by lia. cbn.
        eapply (runs_ret rt cl). exists O. cc. reflexivity.
    Qed.
    Definition reg_tests_call : expr := Eval cbn -[int] in match after 6 (f_body c_register_u) with SSeq (SExp (EAsg _ e)) _ => e | _ => int 0 end.
    Lemma reg_tests_eval : forall p rest ul tm rc k tmp name, let st := rs ul (Some (zlen p)) tm rc k (map Some p ++ rest) tmp name in
      match label_test U REGISTER_TESTS p with Ok _ => evals rt cl reg_tests_call st (I32, 0) st | Fail e => evals rt cl reg_tests_call st (I32, e) st | _ => True end.
    Proof.
      intros p rest ul tm rc k tmp name st. pose proof (part_front p rest) as PP.
      assert (C : forall a b c w, w = REGISTER_TESTS -> cl 0 "_idn2_label_test" [(a, w); (b, 0); (c, zlen p)] [(U32, map Some p ++ rest)] = code (label_test U REGISTER_TESTS p)).
      { intros a b' c w ->. rewrite g_test. unfold on_part. rewrite PP. reflexivity. }
      destruct (label_test U _ p) as [[]|e| |]; [| |exact Logic.I..]; exists O; unfold st, reg_tests_call; c0; nolor; (erewrite C by reflexivity); reflexivity.
    Qed.
    Lemma ureg_runs : forall u32 tmp name, 4 * zlen s <= zlen u32 -> zlen tmp = 64 -> zlen name = 64 ->
      match reg_ulabel U s f with
      | Ok t => u_done 0 (inr t) name (rs None None None None None u32 tmp name) (f_body c_register_u)
      | Fail e => u_done e (inl e) name (rs None None None None None u32 tmp name) (f_body c_register_u)
      | _ => True
      end.
    Proof.
      intros u32 tmp name LU LT LN. pose proof s_len as SL. pose proof part_s as PS. unfold reg_ulabel.
      set (ST := rs None None None None None u32 tmp name). set (S1 := rs (Some (zlen s)) None None None None u32 tmp name).
      assert (H1 : R (SExp (EAsg "ulabellen" (ECall "strlen" ["ulabel"] []))) ST (Norm S1)).
      { eapply (runs_exp rt cl). exists O. unfold ST. cc. rewrite g_strlen, cstr_whole by exact s_no0. cc. reflexivity. }
      assert (HA : evals rt cl (ECall "_idn2_ascii_p" ["ulabel"] [EVar "ulabellen"]) S1 (U8, if ascii_p s then 1 else 0) S1).
      { exists O. unfold S1. cc. rewrite g_ascii. unfold on_part. rewrite PS. reflexivity. }
      change (f_body c_register_u) with (SSeq (SExp (EAsg "ulabellen" (ECall "strlen" ["ulabel"] []))) (after 1 (f_body c_register_u))). cbn -[fill strdup int u_done].
      destruct (ascii_p s).
      - unfold LABEL_MAX. assert (HB : evals rt cl (EBin Gt (EVar "ulabellen") (int 63)) S1 (I32, if 63 <? zlen s then 1 else 0) S1) by (exists O; unfold S1; cc; rewrite ?Z.gtb_ltb; destruct (63 <? zlen s); reflexivity).
        destruct (63 <? zlen s) eqn:L.
        + exists S1, u32, tmp. split; [|reflexivity]. eapply (runs_seq rt cl mono); [exact H1|]. eapply (runs_seq_stop rt cl); [|exact Logic.I]. eapply (runs_if rt cl mono); [exact HA|]. cbn [snd Z.eqb].
          eapply (runs_seq_stop rt cl); [|exact Logic.I]. eapply (runs_if rt cl mono); [exact HB|]. cbn [snd Z.eqb]. eapply (runs_ret rt cl). exists O. reflexivity.
        + destruct (dup_runs "ulabel" s [] (Some (zlen s)) None None None None u32 tmp name (or_introl (conj eq_refl (conj eq_refl eq_refl))) s_no0 ltac:(lia) LN) as (k' & DR).
          eexists. exists u32, tmp. split.
          { eapply (runs_seq rt cl mono); [exact H1|]. eapply (runs_seq_stop rt cl); [|exact Logic.I]. eapply (runs_if rt cl mono); [exact HA|]. cbn [snd Z.eqb].
            eapply (runs_seq rt cl mono). { eapply (runs_if rt cl mono); [exact HB|]. apply runs_skip. } eapply (runs_seq rt cl mono); [exact DR|]. eapply (runs_ret rt cl). exists O. reflexivity. }
          reflexivity.
      - assert (PRE : forall st o, R st S1 o -> R (SSeq (SExp (EAsg "ulabellen" (ECall "strlen" ["ulabel"] []))) (SSeq (SIf (ECall "_idn2_ascii_p" ["ulabel"] [EVar "ulabellen"]) (SSeq (SIf (EBin Gt (EVar "ulabellen") (int 63)) (SReturn (int IDN2_TOO_BIG_LABEL)) SSkip) (SSeq (SIf (EVar "has_insertname") (strdup "ulabel") SSkip) (SReturn (int IDN2_OK)))) SSkip) st)) ST o).
        { intros st o H. eapply (runs_seq rt cl mono); [exact H1|]. eapply (runs_seq rt cl mono). { eapply (runs_if rt cl mono); [exact HA|]. apply runs_skip. } exact H. }
        assert (NS : nfc_call U (Z.land f IDN2_NFC_INPUT) s = u8_to_u32_nfc U s b) by reflexivity.
        pose proof (nz_u8_nfc U s b) as NZ0. pose proof (u8_to_u32_nfc_len U s b) as PL. destruct (u8_to_u32_nfc U s b) as [p|e| |]; cbn [bind]; [| |exact Logic.I..].
        2:{ exists (rs (Some (zlen s)) None None (Some e) None u32 tmp name), u32, tmp. split; [|reflexivity]. apply PRE. unfold S1.
          eapply (runs_seq rt cl mono). { eapply (runs_exp rt cl). exists O. cc. replace ((f <? 0) || false) with false by lia. cbn. rewrite g_nfc, (rc_part _ _ _ _ _ PS), NS. cbn. change (rt "_idn2_u8_to_u32_nfc") with I32. cc. reflexivity. }
          eapply (runs_seq_stop rt cl); [|exact Logic.I]. eapply (runs_if rt cl mono); [exists O; cc; reflexivity|]. cbn [snd]. pose proof (NZ0 e eq_refl) as E0. unfold IDN2_OK in *. replace (e =? 0) with false by lia. cbn.
          eapply (runs_ret rt cl). exists O. cc. reflexivity. }
        specialize (PL p FF eq_refl). pose proof (z0 _ p) as P0. set (X := map Some p ++ skipn (length p) u32).
        assert (LNC : len_of (nfc_call U (Z.land f IDN2_NFC_INPUT)) 0 (zlen s) (map Some (s ++ [0])) = Val (zlen p)) by (apply (len_part _ _ _ _ s p PS NS)).
        set (S2 := rs (Some (zlen s)) (Some (zlen p)) None (Some 0) (Some (zlen p)) X tmp name).
        assert (PR : forall st o, R st S2 o ->
          R (SSeq (SExp (EAsg "rc" (ECall "_idn2_u8_to_u32_nfc" ["ulabel"] two))) (SSeq (SIf (EBin Ne (EVar "rc") (int IDN2_OK)) (SReturn (EVar "rc")) SSkip)
            (SSeq (fill "u32" (int 0) (ECall "_idn2_u8_to_u32_nfc *outlen" ["ulabel"] two) (ECall "_idn2_u8_to_u32_nfc *out" ["ulabel"] [EVar "ulabellen"; EBin BAnd (EVar "flags") (int IDN2_NFC_INPUT); EVar "k"]))
              (SSeq (SExp (EAsg "u32len" (ECall "_idn2_u8_to_u32_nfc *outlen" ["ulabel"] two))) st)))) S1 o).
        { intros st o H. unfold S1.
          eapply (runs_seq rt cl mono). { eapply (runs_exp rt cl). exists O. cc. replace ((f <? 0) || false) with false by lia. cbn. rewrite g_nfc, (rc_part _ _ _ _ _ PS), NS. cbn. change (rt "_idn2_u8_to_u32_nfc") with I32. cc. reflexivity. }
          eapply (runs_seq rt cl mono). { eapply (runs_if rt cl mono); [exists O; cc; reflexivity|]. apply runs_skip. }
          eapply (runs_seq rt cl mono).
          { refine (fill_runs rt cl mono (fun kk arr => rs (Some (zlen s)) None None (Some 0) kk arr tmp name) "u32" (int 0) _ _ 0 p (zlen u32) _ _ _ _ [] u32 None eq_refl _ eq_refl); [| | | |lia].
            - intros kk arr _. eapply (runs_exp rt cl). exists O. c0. reflexivity.
            - intros kk arr B E. exists O. c0. replace ((f <? 0) || false) with false by lia. cbn. rewrite g_nfc_len, LNC. cbn. change (rt "_idn2_u8_to_u32_nfc *outlen") with U64. cc. destruct (kk <? zlen p); reflexivity.
            - intros kk y arr arr' B C IY E SC. exists O. split; [|discriminate]. c0. rewrite ?(u64_id kk) by (unfold two64 in *; lia). replace ((f <? 0) || false) with false by lia. cbn. rewrite g_nfc_elt, (elt_part _ _ _ _ _ s p PS NS), C.
              cbn. change (rt "_idn2_u8_to_u32_nfc *out") with U32. cbn. cbn in SC. rewrite SC. reflexivity.
            - intros kk arr B. eapply (runs_exp rt cl). exists O. c0. rewrite (u64_id (kk + 1)) by (unfold two64 in *; lia). reflexivity. }
          cbn [app]. fold X.
          eapply (runs_seq rt cl mono). { eapply (runs_exp rt cl). exists O. c0. replace ((f <? 0) || false) with false by lia. cbn. rewrite g_nfc_len, LNC. cbn. change (rt "_idn2_u8_to_u32_nfc *outlen") with U64. cc. reflexivity. }
          exact H. }
        pose proof (reg_tests_eval p (skipn (length p) u32) (Some (zlen s)) None (Some 0) (Some (zlen p)) tmp name) as TE. cbv zeta in TE. fold X in TE. fold S2 in TE. pose proof (nz_label_test U REGISTER_TESTS p) as NZ1.
        destruct (label_test U REGISTER_TESTS p) as [ [] |e| |]; cbn [bind]; [| |exact Logic.I..].
        2:{ exists (rs (Some (zlen s)) (Some (zlen p)) None (Some e) (Some (zlen p)) X tmp name), X, tmp. split; [|reflexivity]. apply PRE, PR.
          eapply (runs_seq rt cl mono). { eapply (run_set rt cl S2 "rc" _ (I32, e) ((I32, e), rs (Some (zlen s)) (Some (zlen p)) None (Some e) (Some (zlen p)) X tmp name)); [exact TE|]. reflexivity. }
          cbn [snd]. eapply (runs_seq_stop rt cl); [|exact Logic.I]. eapply (runs_if rt cl mono); [exists O; cc; reflexivity|]. cbn [snd]. pose proof (NZ1 e eq_refl) as E0. unfold IDN2_OK in *. replace (e =? 0) with false by lia. cbn.
          eapply (runs_ret rt cl). exists O. cc. reflexivity. }
        unfold LABEL_MAX. change (63 - 4) with 59. change (63 - 3) with 60.
        assert (GO : forall e r, u_done e r name S2 u_put -> u_done e r name ST (f_body c_register_u)).
        { intros e r (st & u32' & tmp' & RR & AR). exists st, u32', tmp'. split; [|exact AR]. apply PRE, PR.
          eapply (runs_seq rt cl mono). { eapply (run_set rt cl S2 "rc" _ (I32, 0) ((I32, 0), S2)); [exact TE|]. reflexivity. }
          cbn [snd]. eapply (runs_seq rt cl mono). { eapply (runs_if rt cl mono); [exists O; cc; reflexivity|]. apply runs_skip. } exact RR. }
        pose proof (u_put_runs p X (skipn (length p) u32) tmp name (zlen p) None (Some 0) (Some (zlen p)) eq_refl eq_refl ltac:(lia) LT LN) as UP. fold S2 in UP.
        destruct (puny_encode p 59 60) as [enc|e| |]; cbn [bind]; [| |exact Logic.I..]; [|exact (GO _ _ UP)].
        destruct (60 <=? zlen enc) eqn:L6; [exact Logic.I|]. apply GO. apply UP. lia.
    Qed.
  End Ulabel.
End Reg.
