(** The text of the functions around idn2_lookup_u8. *)
From Coq Require Import String.
From Verif Require Import Base PunyBase Uenv DataTypes SpecUtf8 SpecNfc SpecLookup Utf8 Utf8Proofs Puny Idna Lookup Api ApiProofs CostLabel NfcProofs
  CLang CLogic CLeaf CDecode CEncode CLabel CBidi CMapData CLookup CRegister CUnicode CWrap SpecCPuny SpecCRegister SpecCWrap CLookupMap CLookupName CLabelFun CUnicodeRun CRegisterRun.
Local Open Scope string_scope.
Local Open Scope list_scope.
Local Open Scope Z_scope.
Arguments calls : simpl never.
Arguments types : simpl never.
Arguments wrap_program : simpl never.
Arguments Z.land : simpl never.
Arguments Z.lor : simpl never.
Arguments cstr : simpl never.
Arguments u32_strlen : simpl never.
Arguments Z.mul : simpl never.

Section Wrap.
  Variable U : uenv.
  Variables look four : list Z -> Z -> Z + list Z.
  Variable from : list Z -> option (list Z).
  Notation P := (wrap_program U look four from).
  Notation rt := (types P).
  Notation cl := (calls P 0).
  Notation R := (runs rt cl).
  Lemma wr_mono : forall n m f vs a, (n <= m)%nat -> cl n f vs a <> Fuel -> cl m f vs a = cl n f vs a. Proof. intros; now apply calls_mono. Qed.
  Notation mono := wr_mono.
  Lemma w_8 : forall n a t l m, cl n "u8_to_u32" [(a, m)] [(t, l)] = on_part (fun s => size_or_null (u8_to_u32 s)) 0 m l. Proof. reflexivity. Qed.
  Lemma w_8_elt : forall n a b t l m k, cl n "u8_to_u32 result" [(a, m); (b, k)] [(t, l)] = on_part (fun s => element (u8_to_u32 s) k) 0 m l. Proof. reflexivity. Qed.
  Lemma w_is : forall n a t l m, cl n "_isNFC" [(a, m)] [(t, l)] = on_part (fun s => match isNFC U s with Ok v => Val v | _ => UB end) 0 m l. Proof. reflexivity. Qed.
  Lemma w_nf : forall n a t l m, cl n "u32_normalize" [(a, m)] [(t, l)] = on_part (fun s => size_or_null (ue_nfc U s)) 0 m l. Proof. reflexivity. Qed.
  Lemma w_nf_elt : forall n a b t l m k, cl n "u32_normalize result" [(a, m); (b, k)] [(t, l)] = on_part (fun s => element (ue_nfc U s) k) 0 m l. Proof. reflexivity. Qed.
  Lemma w_32 : forall n a b t l p m, cl n "u32_to_u8" [(a, p); (b, m)] [(t, l)] = on_part (fun s => size_or_null (u32_to_u8 s)) p m l. Proof. reflexivity. Qed.
  Lemma w_32_elt : forall n a b c t l p m k, cl n "u32_to_u8 result" [(a, p); (b, m); (c, k)] [(t, l)] = on_part (fun s => element (u32_to_u8 s) k) p m l. Proof. reflexivity. Qed.
  Lemma w_len32 : forall n t l, cl n "u32_strlen" [] [(t, l)] = u32_strlen l. Proof. reflexivity. Qed.
  Lemma w_strlen : forall n t l, cl n "strlen" [] [(t, l)] = rbind (cstr l) (fun s => Val (zlen s)). Proof. reflexivity. Qed.
  Lemma w_from : forall n t l, cl n "u8_strconv_from_encoding" [] [(t, l)] = rbind (cstr l) (fun s => size_or_null (with_nul (from s))). Proof. reflexivity. Qed.
  Lemma w_from_elt : forall n a t l k, cl n "u8_strconv_from_encoding result" [(a, k)] [(t, l)] = rbind (cstr l) (fun s => element (with_nul (from s)) k). Proof. reflexivity. Qed.
  Lemma w_look : forall n a t l f, cl n "idn2_lookup_u8" [(a, f)] [(t, l)] = rbind (cstr l) (fun s => rc_sum (look s f)). Proof. reflexivity. Qed.
  Lemma w_look_len : forall n a t l f, cl n "idn2_lookup_u8 size" [(a, f)] [(t, l)] = rbind (cstr l) (fun s => size_sum (look s f)). Proof. reflexivity. Qed.
  Lemma w_look_elt : forall n a b t l f k, cl n "idn2_lookup_u8 *lookupname" [(a, f); (b, k)] [(t, l)] = rbind (cstr l) (fun s => elt_sum (look s f) k). Proof. reflexivity. Qed.
  Lemma w_four : forall n a b t l m f, cl n "idn2_to_ascii_4i2" [(a, m); (b, f)] [(t, l)] = on_part (fun s => rc_sum (four s f)) 0 m l. Proof. reflexivity. Qed.
  Lemma w_four_len : forall n a b t l m f, cl n "idn2_to_ascii_4i2 size" [(a, m); (b, f)] [(t, l)] = on_part (fun s => size_sum (four s f)) 0 m l. Proof. reflexivity. Qed.
  Lemma w_four_elt : forall n a b c t l m f k, cl n "idn2_to_ascii_4i2 *output" [(a, m); (b, f); (c, k)] [(t, l)] = on_part (fun s => elt_sum (four s f) k) 0 m l. Proof. reflexivity. Qed.

  (** A loop that fills an array from its front on. *)
  Lemma fill_front : forall (ST : option Z -> list (option Z) -> cst) a n e ty te t,
    (forall k arr, R (SExp (EAsg "k" (int 0))) (ST k arr) (Norm (ST (Some 0) arr))) ->
    (forall k arr, 0 <= k < zlen t -> R (SExp (EPost "k")) (ST (Some k) arr) (Norm (ST (Some (k + 1)) arr))) ->
    (forall k arr, evals rt cl (EVar "k") (ST (Some k) arr) (U64, k) (ST (Some k) arr)) ->
    (forall k arr, assoc a (arrs (ST k arr)) = Some (ty, arr)) ->
    (forall k arr arr', mkst (vars (ST k arr)) (update a (fun _ => (ty, arr')) (arrs (ST k arr))) = ST k arr') ->
    (forall k arr, 0 <= k <= zlen t -> evals rt cl n (ST (Some k) arr) (U64, zlen t) (ST (Some k) arr)) ->
    (forall k arr b, 0 <= k < zlen t -> cell (map Some t) k = Val b -> evals rt cl e (ST (Some k) arr) (te, b) (ST (Some k) arr)) ->
    Forall (fun b => cast te ty b = b) t ->
    forall arr k, zlen t <= zlen arr -> zlen t < two64 -> R (fill a (int 0) n e) (ST k arr) (Norm (ST (Some (zlen t)) (in_front t arr))).
  Proof.
    intros ST a n e ty te t H0 H3 HK HI HU HN HE FT arr k LA L6. pose proof (z0 _ t) as T0. unfold in_front.
    refine (fill_runs rt cl mono ST a (int 0) n e 0 t (zlen arr) _ _ _ _ [] arr k eq_refl LA eq_refl).
    - intros. apply H0.
    - intros kk ar B E. eapply (ev_bin rt cl mono _ _ _ _ (U64, kk) (U64, zlen t)); [apply HK|apply HN; exact B|]. cbn. unfold cast. cbn. destruct (kk <? zlen t); reflexivity.
    - intros kk b ar ar' B C IB E SC. rewrite <- (HU (Some kk) ar ar').
      eapply (run_store rt cl mono (ST (Some kk) ar) a _ _ ty ar (U64, 0 + kk) (te, b) ar'); [apply HI| |apply HE; [exact B|exact C]|].
      + eapply (ev_bin rt cl mono _ _ _ _ (I32, 0) (U64, kk)); [exists O; reflexivity|apply HK|]. cbn. unfold cast. cbn. change (u64 0) with 0. replace (0 + kk) with kk by lia. rewrite ?(u64_id kk) by lia. reflexivity.
      + cbn [fst snd]. rewrite (proj1 (Forall_forall _ _) FT b IB). exact SC.
    - exact H3.
  Qed.
  Ltac ff := first [ intros; eapply (runs_exp rt cl); exists O; cc; reflexivity
                   | intros kk ? ?; eapply (runs_exp rt cl); exists O; cc; rewrite (u64_id (kk + 1)) by (unfold two64 in *; lia); reflexivity
                   | intros; exists O; reflexivity | reflexivity ].

  (** * idna.c *)
  Section Nfc.
    Variables (s : list Z) (rest : list (option Z)) (nfc : Z).
    Hypothesis LS : 4 * zlen s < two64 / 2.
    Definition nmem (p tmp out ol : list (option Z)) : list (string * carr) := [("src", (U8, map Some s ++ rest)); ("p", (U32, p)); ("tmp", (U32, tmp)); ("out", (U32, out)); ("outlen", (U64, ol))].
    Definition ns (pl tl k : option Z) (p tmp out ol : list (option Z)) : cst :=
      mkst [("srclen", (U64, Some (zlen s))); ("nfc", (I32, Some nfc)); ("plen", (U64, pl)); ("tmplen", (U64, tl)); ("k", (U64, k))] (nmem p tmp out ol).
    Definition n_done (r : Z + list Z) (out : list (option Z)) (n : option Z) (st0 : cst) (body : stmt) : Prop :=
      exists st p' tmp', R body st0 (Ret (I32, SpecCRegister.code_of r) st) /\ arrs st = nmem p' tmp' (match r with inr l => in_front l out | inl _ => out end) [match r with inr l => Some (zlen l) | inl _ => n end].
    Notation size8 := (ECall "u8_to_u32" ["src"] [EVar "srclen"]).
    Lemma n_out : forall q X tl tmp out n k, zlen q < two64 -> zlen q <= zlen out ->
      n_done (inr q) out n (ns (Some (zlen q)) tl k (map Some q ++ X) tmp out [n]) (after 4 (f_body c_nfc)).
    Proof.
      intros q X tl tmp out n k LQ LO. pose proof (z0 _ q) as Q0.
      exists (ns (Some (zlen q)) tl (Some (zlen q)) (map Some q ++ X) tmp (in_front q out) [Some (zlen q)]), (map Some q ++ X), tmp. split; [|reflexivity]. cbn -[fill int two64].
      eapply (runs_seq rt cl mono).
      { apply (fill_front (fun kk arr => ns (Some (zlen q)) tl kk (map Some q ++ X) tmp arr [n]) "out" _ _ U32 U32 q); [ff|ff|ff|ff|ff|ff| | |exact LO|exact LQ].
        - intros kk arr b B C. eapply (ev_idx rt cl); [reflexivity|exists O; reflexivity|]. cbn [snd]. apply cell_front. exact C.
        - apply Forall_forall. intros c _. reflexivity. }
      eapply (runs_seq rt cl mono). { exists O. split; [|discriminate]. cc. rewrite ?(set_c [] n [] _ 0 eq_refl). cbn. reflexivity. }
      eapply (runs_ret rt cl). exists O. reflexivity.
    Qed.
    Lemma n_all : forall p tmp out n, at_most_fourfold U -> 4 * zlen s <= zlen p -> 4 * zlen s <= zlen tmp -> 4 * zlen s <= zlen out ->
      match u8_to_u32_nfc U s (negb (nfc =? 0)) with
      | Ok q => n_done (inr q) out n (ns None None None p tmp out [n]) (f_body c_nfc)
      | Fail e => n_done (inl e) out n (ns None None None p tmp out [n]) (f_body c_nfc)
      | _ => True
      end.
    Proof.
      intros p tmp out n FF LP LT LO. pose proof (part_front s rest) as PS. pose proof (z0 _ s) as S0. assert (L2 : two64 / 2 = 9223372036854775808) by reflexivity. rewrite L2 in LS.
      pose proof (u8_to_u32_nfc_len U s false) as B1. pose proof (u8_to_u32_nfc_len U s (negb (nfc =? 0))) as B2. unfold u8_to_u32_nfc in *.
      assert (S8 : forall pl tl k X tm o ol, evals rt cl size8 (ns pl tl k X tm o ol) (I64, match u8_to_u32 s with Some a => zlen a | None => -1 end) (ns pl tl k X tm o ol)).
      { intros. exists O. cc. rewrite w_8. unfold on_part. rewrite PS. reflexivity. }
      destruct (u8_to_u32 s) as [q|] eqn:Q8; cbn [Utf8.conv bind] in *.
      2:{ exists (ns None None None p tmp out [n]), p, tmp. split; [|reflexivity]. eapply (runs_seq_stop rt cl); [|exact Logic.I]. eapply (runs_if rt cl mono).
          { eapply (ev_bin rt cl mono _ _ _ _ (I64, -1) (I32, -1)); [apply S8|exists O; reflexivity|reflexivity]. } eapply (runs_ret rt cl). exists O. reflexivity. }
      specialize (B1 q FF eq_refl). pose proof (z0 _ q) as Q0.
      set (X := in_front q p). pose proof (part_front q (skipn (length q) p)) as PQ. fold (in_front q p) in PQ. fold X in PQ.
      assert (PRE : forall st o, R st (ns (Some (zlen q)) None (Some (zlen q)) X tmp out [n]) o ->
        R (SSeq (SIf (EBin Eq size8 (EBin Sub (int 0) (int 1))) (SReturn (int IDN2_ENCODING_ERROR)) SSkip)
           (SSeq (fill "p" (int 0) (ECast U64 size8) (ECall "u8_to_u32 result" ["src"] [EVar "srclen"; EVar "k"])) (SSeq (SExp (EAsg "plen" size8)) st))) (ns None None None p tmp out [n]) o).
      { intros st o H.
        eapply (runs_seq rt cl mono). { eapply (runs_if rt cl mono). { eapply (ev_bin rt cl mono _ _ _ _ (I64, zlen q) (I32, -1)); [apply S8|exists O; reflexivity|reflexivity]. }
          cbn. unfold cast. cbn. replace (zlen q =? -1) with false by lia. cbn. apply runs_skip. }
        eapply (runs_seq rt cl mono).
        { apply (fill_front (fun kk arr => ns None None kk arr tmp out [n]) "p" _ _ U32 U32 q); [ff|ff|ff|ff|ff| | | |lia|unfold two64; lia].
          - intros kk arr B. destruct (S8 None None (Some kk) arr tmp out [n]) as (m & E). exists m. cbn [eval] in E |- *. rewrite E. cbn. unfold cast. cbn. rewrite (u64_id (zlen q)) by (unfold two64; lia). reflexivity.
          - intros kk arr b B C. exists O. cc. rewrite w_8_elt. unfold on_part. rewrite PS. cbn [rbind]. rewrite Q8. cbn [element]. rewrite C. reflexivity.
          - apply Forall_forall. intros c _. reflexivity. }
        fold X. eapply (runs_seq rt cl mono). { eapply (run_set rt cl _ "plen" _ (I64, zlen q) ((U64, zlen q), ns (Some (zlen q)) None (Some (zlen q)) X tmp out [n])); [apply S8|]. cbn. unfold cast. cbn. rewrite (u64_id (zlen q)) by (unfold two64; lia). reflexivity. }
        exact H. }
      set (S1 := ns (Some (zlen q)) None (Some (zlen q)) X tmp out [n]) in *.
      assert (OUT : n_done (inr q) out n S1 (after 4 (f_body c_nfc))) by (apply n_out; [unfold two64; lia|lia]).
      assert (SKIP : evals rt cl (EAnd (EVar "nfc") (ENot (ECall "_isNFC" ["p"] [EVar "plen"]))) S1 (I32, 0) S1 -> n_done (inr q) out n (ns None None None p tmp out [n]) (f_body c_nfc)).
      { intros EV. destruct OUT as (st & p' & tmp' & RR & AR). exists st, p', tmp'. split; [|exact AR]. apply PRE. eapply (runs_seq rt cl mono). { eapply (runs_if rt cl mono); [exact EV|]. apply runs_skip. } exact RR. }
      destruct (nfc =? 0) eqn:N0; cbn [negb] in *. { apply SKIP. exists O. unfold S1. cc. rewrite N0. reflexivity. }
      assert (IN : forall e, isNFC U q = Fail e -> False) by (intros e E; destruct (isNFC_spec U q) as [(E1 & _)|(E1 & _)]; rewrite E1 in E; discriminate E).
      destruct (isNFC U q) as [v| | |] eqn:IQ; cbn [bind] in *; [|exfalso; exact (IN _ eq_refl)|exact Logic.I|exact Logic.I].
      assert (EV : evals rt cl (EAnd (EVar "nfc") (ENot (ECall "_isNFC" ["p"] [EVar "plen"]))) S1 (I32, if v =? 0 then 1 else 0) S1).
      { exists O. unfold S1. cc. rewrite N0. cbn. rewrite w_is. unfold on_part. rewrite PQ. cbn [rbind]. rewrite IQ. cbn. destruct (v =? 0); reflexivity. }
      destruct (v =? 0); [|exact (SKIP EV)].
      assert (SN : forall pl tl k tm o ol, pl = Some (zlen q) -> evals rt cl (ECall "u32_normalize" ["p"] [EVar "plen"]) (ns pl tl k X tm o ol) (I64, match ue_nfc U q with Some a => zlen a | None => -1 end) (ns pl tl k X tm o ol)).
      { intros pl tl k tm o ol ->. exists O. cc. rewrite w_nf. unfold on_part. rewrite PQ. reflexivity. }
      destruct (ue_nfc U q) as [r|] eqn:QN; cbn [Utf8.conv] in *.
      2:{ exists S1, X, tmp. split; [|reflexivity]. apply PRE. eapply (runs_seq_stop rt cl); [|exact Logic.I]. eapply (runs_if rt cl mono); [exact EV|]. cbn [snd Z.eqb].
          eapply (runs_seq_stop rt cl); [|exact Logic.I]. eapply (runs_if rt cl mono). { eapply (ev_bin rt cl mono _ _ _ _ (I64, -1) (I32, -1)); [apply SN; reflexivity|exists O; reflexivity|reflexivity]. } eapply (runs_ret rt cl). exists O. reflexivity. }
      specialize (B2 r FF eq_refl). pose proof (z0 _ r) as R0.
      assert (LX : zlen r <= zlen X). { unfold X, in_front. rewrite zlen_app, zlen_map. unfold zlen in *. rewrite skipn_length. lia. }
      pose proof (n_out r (skipn (length r) X) (Some (zlen r)) (in_front r tmp) out n (Some (zlen r)) ltac:(unfold two64; lia) ltac:(lia)) as (st & p' & tmp' & RR & AR).
      exists st, p', tmp'. split; [|exact AR]. apply PRE. eapply (runs_seq rt cl mono); [|exact RR]. eapply (runs_if rt cl mono); [exact EV|]. cbn [snd Z.eqb].
      eapply (runs_seq rt cl mono). { eapply (runs_if rt cl mono). { eapply (ev_bin rt cl mono _ _ _ _ (I64, zlen r) (I32, -1)); [apply SN; reflexivity|exists O; reflexivity|reflexivity]. }
        cbn. unfold cast. cbn. replace (zlen r =? -1) with false by lia. cbn. apply runs_skip. }
      eapply (runs_seq rt cl mono).
      { apply (fill_front (fun kk arr => ns (Some (zlen q)) None kk X arr out [n]) "tmp" _ _ U32 U32 r); [ff|ff|ff|ff|ff| | | |lia|unfold two64; lia].
        - intros kk arr B. destruct (SN (Some (zlen q)) None (Some kk) arr out [n] eq_refl) as (m & E). exists m. cbn [eval] in E |- *. rewrite E. cbn. unfold cast. cbn. rewrite (u64_id (zlen r)) by (unfold two64; lia). reflexivity.
        - intros kk arr b B C. exists O. cc. rewrite w_nf_elt. unfold on_part. rewrite PQ. cbn [rbind]. rewrite QN. cbn [element]. rewrite C. reflexivity.
        - apply Forall_forall. intros c _. reflexivity. }
      eapply (runs_seq rt cl mono). { eapply (run_set rt cl _ "tmplen" _ (I64, zlen r) ((U64, zlen r), ns (Some (zlen q)) (Some (zlen r)) (Some (zlen r)) X (in_front r tmp) out [n])); [apply SN; reflexivity|]. cbn. unfold cast. cbn. rewrite (u64_id (zlen r)) by (unfold two64; lia). reflexivity. }
      cbn [snd]. eapply (runs_seq rt cl mono).
      { apply (fill_front (fun kk arr => ns (Some (zlen q)) (Some (zlen r)) kk arr (in_front r tmp) out [n]) "p" _ _ U32 U32 r); [ff|ff|ff|ff|ff|ff| | |lia|unfold two64; lia].
        - intros kk arr b B C. eapply (ev_idx rt cl); [reflexivity|exists O; reflexivity|]. cbn [snd]. apply cell_front. exact C.
        - apply Forall_forall. intros c _. reflexivity. }
      eapply (runs_exp rt cl). exists O. cc. reflexivity.
    Qed.
  End Nfc.

  (** * lookup.c *)
  Definition look_fine (r : Z + list Z) : Prop := match r with inl rc => rc <> 0 | inr t => Forall (fun b => 0 <= b <= 255) t /\ zlen t < 4611686018427387904 end.
  Lemma front_string : forall t name, in_front (t ++ [0]) name = with_string t name.
  Proof. intros t name. unfold in_front, with_string. rewrite app_length. cbn [length]. replace (length t + 1)%nat with (S (length t)) by lia. reflexivity. Qed.
  Lemma byte_cast : forall t, Forall (fun b => cast U8 U8 b = b) t. Proof. intros t. apply Forall_forall. intros b _. reflexivity. Qed.
  Lemma ask_runs : forall (ST : option Z -> option Z -> list (option Z) -> cst) inp outn has fl d q f0 (has_ : bool),
    ~ In 0 d -> look_fine (look d f0) ->
    (forall rc k name v, set_var "rc" (I32, v) (ST rc k name) = Val ((I32, v), ST (Some v) k name)) ->
    (forall v k name, get_var "rc" (ST (Some v) k name) = Val (I32, v)) ->
    (forall rc k name, get_var has (ST rc k name) = Val (I32, if has_ then 1 else 0)) ->
    (forall rc k name, evals rt cl fl (ST rc k name) (I32, f0) (ST rc k name)) ->
    (forall rc k name, pick [inp] (arrs (ST rc k name)) = Some [(U8, map Some (d ++ [0]) ++ q)]) ->
    (forall rc k arr, R (SExp (EAsg "k" (int 0))) (ST rc k arr) (Norm (ST rc (Some 0) arr))) ->
    (forall rc k arr, 0 <= k < 4611686018427387905 -> R (SExp (EPost "k")) (ST rc (Some k) arr) (Norm (ST rc (Some (k + 1)) arr))) ->
    (forall rc k arr, evals rt cl (EVar "k") (ST rc (Some k) arr) (U64, k) (ST rc (Some k) arr)) ->
    (forall rc k arr, assoc outn (arrs (ST rc k arr)) = Some (U8, arr)) ->
    (forall rc k arr arr', mkst (vars (ST rc k arr)) (update outn (fun _ => (U8, arr')) (arrs (ST rc k arr))) = ST rc k arr') ->
    forall rc k name, room (look d f0) name -> exists rc' k', R (ask inp outn has fl) (ST rc k name) (Ret (I32, SpecCRegister.code_of (look d f0)) (ST rc' k' (inserted has_ (look d f0) name))).
  Proof.
    intros ST inp outn has fl d q f0 has_ N0 LK HS HR HH HF HP H0 H3 HK HI HU rc k name RM. set (r := look d f0) in *.
    assert (CD : cstr (map Some (d ++ [0]) ++ q) = Val d) by (apply cstr_front; exact N0).
    assert (CALL : R (SExp (EAsg "rc" (ECall "idn2_lookup_u8" [inp] [fl]))) (ST rc k name) (Norm (ST (Some (SpecCRegister.code_of r)) k name))).
    { eapply (run_set rt cl (ST rc k name) "rc" _ (I32, SpecCRegister.code_of r) ((I32, SpecCRegister.code_of r), ST (Some (SpecCRegister.code_of r)) k name)); [|apply HS].
      apply (ev_call rt cl mono _ "idn2_lookup_u8" [inp] [fl] [(I32, f0)] _ [(U8, map Some (d ++ [0]) ++ q)]); [constructor; [apply HF|constructor]|apply HP|]. intros m. rewrite w_look, CD. reflexivity. }
    assert (EQ : forall v kk nm, evals rt cl (EBin Eq (EVar "rc") (int IDN2_OK)) (ST (Some v) kk nm) (I32, if v =? 0 then 1 else 0) (ST (Some v) kk nm)).
    { intros v kk nm. eapply (ev_bin rt cl mono _ _ _ _ (I32, v) (I32, 0)); [exists O; cbn [eval]; rewrite HR; reflexivity|exists O; reflexivity|]. cbn. unfold cast. cbn. destruct (v =? 0); reflexivity. }
    assert (RET : forall v kk nm, R (SReturn (EVar "rc")) (ST (Some v) kk nm) (Ret (I32, v) (ST (Some v) kk nm))) by (intros; eapply (runs_ret rt cl); exists O; cbn [eval]; rewrite HR; reflexivity).
    unfold ask. destruct r as [e|t] eqn:ER; cbn [SpecCRegister.code_of inserted room look_fine] in *.
    - exists (Some e), k. eapply (runs_seq rt cl mono); [exact CALL|]. eapply (runs_seq rt cl mono); [|apply RET]. eapply (runs_if rt cl mono); [apply EQ|]. cbn [snd]. replace (e =? 0) with false by lia. apply runs_skip.
    - destruct LK as (_ & LT). pose proof (z0 _ t) as T0. assert (ZT : zlen (t ++ [0]) = zlen t + 1) by (rewrite zlen_app; reflexivity).
      destruct has_.
      + exists (Some 0), (Some (zlen (t ++ [0]))). eapply (runs_seq rt cl mono); [exact CALL|]. eapply (runs_seq rt cl mono); [|apply RET]. eapply (runs_if rt cl mono); [apply EQ|]. cbn [snd Z.eqb].
        eapply (runs_if rt cl mono). { exists O. cbn [eval]. rewrite HH. reflexivity. } cbn [snd Z.eqb]. rewrite <- front_string.
        apply (fill_front (fun kk arr => ST (Some 0) kk arr) outn _ _ U8 U8 (t ++ [0])); [intros; apply H0|intros kk arr B; apply H3; lia|intros; apply HK|intros; apply HI|intros; apply HU| | |apply byte_cast|lia|unfold two64; lia].
        * intros kk arr B. apply (ev_call rt cl mono _ "idn2_lookup_u8 size" [inp] [fl] [(I32, f0)] _ [(U8, map Some (d ++ [0]) ++ q)]); [constructor; [apply HF|constructor]|apply HP|]. intros m. rewrite w_look_len, CD. cbn [rbind]. fold r. rewrite ER. reflexivity.
        * intros kk arr b B C. apply (ev_call rt cl mono _ "idn2_lookup_u8 *lookupname" [inp] [fl; EVar "k"] [(I32, f0); (U64, kk)] _ [(U8, map Some (d ++ [0]) ++ q)]); [constructor; [apply HF|constructor; [apply HK|constructor] ]|apply HP|].
          intros m. rewrite w_look_elt, CD. cbn [rbind]. fold r. rewrite ER. exact C.
      + exists (Some 0), k. eapply (runs_seq rt cl mono); [exact CALL|]. eapply (runs_seq rt cl mono); [|apply RET]. eapply (runs_if rt cl mono); [apply EQ|]. cbn [snd Z.eqb].
        eapply (runs_if rt cl mono). { exists O. cbn [eval]. rewrite HH. reflexivity. } apply runs_skip.
  Qed.
  (** The string in a converted buffer. *)
  Definition conv_result (l : list Z) (f : Z) : Z + list Z := match u32_to_u8 l with None => inl IDN2_ENCODING_ERROR | Some s => look (upto0 s) f end.
  Definition conv_ask (size elt : expr) : stmt :=
    SSeq (SIf (EBin Eq size (EBin Sub (int 0) (int 1))) (SReturn (int IDN2_ENCODING_ERROR)) SSkip) (SSeq (fill "input_u8" (int 0) (ECast U64 size) elt) (ask "input_u8" "output" "has_output" (EVar "flags"))).
  Lemma conv_runs : forall (ST : option Z -> option Z -> list (option Z) -> list (option Z) -> cst) size elt l f0 (has_ : bool),
    zlen l < 1000000000000000000 ->
    (forall s, u32_to_u8 l = Some s -> look_fine (look (upto0 s) f0)) ->
    (forall rc k u nm, evals rt cl size (ST rc k u nm) (I64, match u32_to_u8 (l ++ [0]) with Some a => zlen a | None => -1 end) (ST rc k u nm)) ->
    (forall rc k u nm a c, u32_to_u8 (l ++ [0]) = Some a -> 0 <= k < zlen a -> cell (map Some a) k = Val c -> evals rt cl elt (ST rc (Some k) u nm) (U8, c) (ST rc (Some k) u nm)) ->
    (forall rc k u nm v, set_var "rc" (I32, v) (ST rc k u nm) = Val ((I32, v), ST (Some v) k u nm)) ->
    (forall v k u nm, get_var "rc" (ST (Some v) k u nm) = Val (I32, v)) ->
    (forall rc k u nm, get_var "has_output" (ST rc k u nm) = Val (I32, if has_ then 1 else 0)) ->
    (forall rc k u nm, get_var "flags" (ST rc k u nm) = Val (I32, f0)) ->
    (forall rc k u nm, pick ["input_u8"] (arrs (ST rc k u nm)) = Some [(U8, u)]) ->
    (forall rc k u nm, R (SExp (EAsg "k" (int 0))) (ST rc k u nm) (Norm (ST rc (Some 0) u nm))) ->
    (forall rc k u nm, 0 <= k < 4611686018427387905 -> R (SExp (EPost "k")) (ST rc (Some k) u nm) (Norm (ST rc (Some (k + 1)) u nm))) ->
    (forall rc k u nm, evals rt cl (EVar "k") (ST rc (Some k) u nm) (U64, k) (ST rc (Some k) u nm)) ->
    (forall rc k u nm, assoc "output" (arrs (ST rc k u nm)) = Some (U8, nm)) ->
    (forall rc k u nm nm', mkst (vars (ST rc k u nm)) (update "output" (fun _ => (U8, nm')) (arrs (ST rc k u nm))) = ST rc k u nm') ->
    (forall rc k u nm, assoc "input_u8" (arrs (ST rc k u nm)) = Some (U8, u)) ->
    (forall rc k u nm u', mkst (vars (ST rc k u nm)) (update "input_u8" (fun _ => (U8, u')) (arrs (ST rc k u nm))) = ST rc k u' nm) ->
    forall k u nm, 4 * (zlen l + 1) <= zlen u -> room (conv_result l f0) nm ->
    exists rc' k' u', R (conv_ask size elt) (ST None k u nm) (Ret (I32, SpecCRegister.code_of (conv_result l f0)) (ST rc' k' u' (inserted has_ (conv_result l f0) nm))).
  Proof.
    intros ST size elt l f0 has_ LL LF SZ EL HS HR HH HF HP H0 H3 HK HO HOU HI HIU k u nm LU RM. unfold conv_result in *. pose proof (z0 _ l) as L0. unfold conv_ask.
    destruct (u32_to_u8 l) as [s|] eqn:E8.
    2:{ assert (EN : u32_to_u8 (l ++ [0]) = None) by (rewrite u32_to_u8_app, E8; reflexivity). rewrite EN in SZ.
        exists None, k, u. eapply (runs_seq_stop rt cl); [|exact Logic.I]. eapply (runs_if rt cl mono). { eapply (ev_bin rt cl mono _ _ _ _ (I64, -1) (I32, -1)); [apply SZ|exists O; reflexivity|reflexivity]. } eapply (runs_ret rt cl). exists O. reflexivity. }
    assert (EN : u32_to_u8 (l ++ [0]) = Some (s ++ [0])) by (apply conv0; now apply u32_to_u8_iff). rewrite EN in SZ.
    pose proof (u32_to_u8_len l s E8) as LS. pose proof (z0 _ s) as S0. assert (ZS : zlen (s ++ [0]) = zlen s + 1) by (rewrite zlen_app; reflexivity).
    destruct (upto0_cut s) as (q & CUT). set (X := in_front (s ++ [0]) u).
    assert (XE : X = map Some (upto0 s ++ [0]) ++ (map Some q ++ skipn (length (s ++ [0])) u)) by (unfold X, in_front; rewrite CUT at 1; rewrite map_app, <- app_assoc; reflexivity).
    destruct (ask_runs (fun rc k nm => ST rc k X nm) "input_u8" "output" "has_output" (EVar "flags") (upto0 s) (map Some q ++ skipn (length (s ++ [0])) u) f0 has_ (upto0_no0 s) (LF s eq_refl)) with (rc := @None Z) (k := Some (zlen (s ++ [0]))) (name := nm) as (rc' & k' & AR);
      [intros; apply HS|intros; apply HR|intros; apply HH|intros; exists O; cbn [eval]; rewrite HF; reflexivity|intros; rewrite <- XE; apply HP|intros; apply H0|intros; apply H3; assumption|intros; apply HK|intros; apply HO|intros; apply HOU|exact RM|].
    exists rc', k', X.
    eapply (runs_seq rt cl mono). { eapply (runs_if rt cl mono). { eapply (ev_bin rt cl mono _ _ _ _ (I64, zlen (s ++ [0])) (I32, -1)); [apply SZ|exists O; reflexivity|reflexivity]. }
      cbn. unfold cast. cbn. replace (zlen (s ++ [0]) =? -1) with false by lia. cbn. apply runs_skip. }
    eapply (runs_seq rt cl mono); [|exact AR].
    apply (fill_front (fun kk arr => ST None kk arr nm) "input_u8" _ _ U8 U8 (s ++ [0])); [intros; apply H0|intros kk arr B; apply H3; lia|intros; apply HK|intros; apply HI|intros; apply HIU| | |apply byte_cast|lia|unfold two64; lia].
    - intros kk arr B. destruct (SZ None (Some kk) arr nm) as (m & E). exists m. cbn [eval] in E |- *. rewrite E. cbn. unfold cast. cbn. rewrite (u64_id (zlen (s ++ [0]))) by (unfold two64; lia). reflexivity.
    - intros kk arr c B C. apply (EL None kk arr nm (s ++ [0]) c EN B C).
  Qed.

  Section Ul.
    Variables (s : list Z) (f : Z) (has_ : bool).
    Hypothesis N0 : ~ In 0 s.
    Hypothesis F : 0 <= f < 2147483648.
    Definition ulmem (u8 name : list (option Z)) : list (string * carr) := [("src", (U8, map Some (s ++ [0]))); ("utf8src", (U8, u8)); ("lookupname", (U8, name))].
    Definition us (rc k : option Z) (u8 name : list (option Z)) : cst := mkst [("flags", (I32, Some f)); ("has_lookupname", (I32, Some (if has_ then 1 else 0))); ("rc", (I32, rc)); ("k", (U64, k))] (ulmem u8 name).
    Definition ul_result : Z + list Z := match from s with None => inl IDN2_ICONV_FAIL | Some b => look b (Z.lor f IDN2_NFC_INPUT) end.
    Lemma ul_runs : forall u8 name, (forall b, from s = Some b -> ~ In 0 b /\ zlen b < 4611686018427387904 /\ zlen b < zlen u8 /\ look_fine (look b (Z.lor f IDN2_NFC_INPUT))) -> room ul_result name ->
      exists st u8', R (f_body c_lookup_ul) (us None None u8 name) (Ret (I32, SpecCRegister.code_of ul_result) st) /\ arrs st = ulmem u8' (inserted has_ ul_result name).
    Proof.
      intros u8 name H RM. unfold ul_result in *. pose proof (cstr_whole s N0) as CS.
      assert (SZ : forall rc k u nm, evals rt cl (ECall "u8_strconv_from_encoding" ["src"] []) (us rc k u nm) (I64, match with_nul (from s) with Some a => zlen a | None => -1 end) (us rc k u nm)).
      { intros. exists O. cc. rewrite w_from, CS. reflexivity. }
      destruct (from s) as [b|] eqn:FB; cbn [with_nul] in SZ.
      2:{ exists (us None None u8 name), u8. split; [|reflexivity]. eapply (runs_seq_stop rt cl); [|exact Logic.I]. eapply (runs_if rt cl mono). { eapply (ev_bin rt cl mono _ _ _ _ (I64, -1) (I32, -1)); [apply SZ|exists O; reflexivity|reflexivity]. } eapply (runs_ret rt cl). exists O. reflexivity. }
      destruct (H b eq_refl) as (NB & LB & LU & LF). pose proof (z0 _ b) as B0. assert (ZB : zlen (b ++ [0]) = zlen b + 1) by (rewrite zlen_app; reflexivity).
      set (r := look b (Z.lor f IDN2_NFC_INPUT)) in *. set (X := in_front (b ++ [0]) u8).
      assert (FL : forall rc k nm, evals rt cl (EBin BOr (EVar "flags") (int IDN2_NFC_INPUT)) (us rc k X nm) (I32, Z.lor f IDN2_NFC_INPUT) (us rc k X nm)).
      { intros. exists O. cc. replace (f <? 0) with false by lia. reflexivity. }
      destruct (ask_runs (fun rc k nm => us rc k X nm) "utf8src" "lookupname" "has_lookupname" (EBin BOr (EVar "flags") (int IDN2_NFC_INPUT)) b (skipn (length (b ++ [0])) u8) (Z.lor f IDN2_NFC_INPUT) has_ NB LF) with (rc := @None Z) (k := Some (zlen (b ++ [0]))) (name := name) as (rc' & k' & AR);
        [reflexivity|reflexivity|reflexivity|exact FL|reflexivity|ff|intros rc kk arr B; eapply (runs_exp rt cl); exists O; cc; rewrite (u64_id (kk + 1)) by (unfold two64; lia); reflexivity|ff|reflexivity|reflexivity|exact RM|].
      exists (us rc' k' X (inserted has_ r name)), X. split; [|reflexivity].
      eapply (runs_seq rt cl mono). { eapply (runs_if rt cl mono). { eapply (ev_bin rt cl mono _ _ _ _ (I64, zlen (b ++ [0])) (I32, -1)); [apply SZ|exists O; reflexivity|reflexivity]. }
        cbn. unfold cast. cbn. replace (zlen (b ++ [0]) =? -1) with false by lia. cbn. apply runs_skip. }
      eapply (runs_seq rt cl mono); [|exact AR].
      apply (fill_front (fun kk arr => us None kk arr name) "utf8src" _ _ U8 U8 (b ++ [0])); [ff| |ff|ff|ff| | |apply byte_cast|lia|unfold two64; lia].
      - intros kk arr B. eapply (runs_exp rt cl). exists O. cc. rewrite (u64_id (kk + 1)) by (unfold two64; lia). reflexivity.
      - intros kk arr B. destruct (SZ None (Some kk) arr name) as (m & E). exists m. cbn [eval] in E |- *. rewrite E. cbn. unfold cast. cbn. rewrite (u64_id (zlen (b ++ [0]))) by (unfold two64; lia). reflexivity.
      - intros kk arr c B C. exists O. cc. rewrite w_from_elt, CS. cbn [rbind]. rewrite FB. cbn [element with_nul]. rewrite C. reflexivity.
    Qed.
  End Ul.
  Section Four.
    Variables (l : list Z) (f : Z) (has_ : bool) (rest : list (option Z)).
    Hypothesis LL : zlen l < 1000000000000000000.
    Hypothesis LF : forall s, u32_to_u8 l = Some s -> look_fine (look (upto0 s) f).
    Ltac kk1 := intros; eapply (runs_exp rt cl); exists O; cc; match goal with |- context [u64 (?k + 1)] => rewrite (u64_id (k + 1)) by (unfold two64; lia) end; reflexivity.
    Definition zmem (u8 name : list (option Z)) : list (string * carr) := [("input", (U32, map Some (l ++ [0]) ++ rest)); ("input_u8", (U8, u8)); ("output", (U8, name))].
    Definition zs (rc k : option Z) (u8 name : list (option Z)) : cst := mkst [("flags", (I32, Some f)); ("has_output", (I32, Some (if has_ then 1 else 0))); ("rc", (I32, rc)); ("k", (U64, k))] (zmem u8 name).
    Lemma z_runs : forall u8 name, ~ In 0 l -> 4 * (zlen l + 1) <= zlen u8 -> room (conv_result l f) name ->
      exists st u8', R (f_body c_4z) (zs None None u8 name) (Ret (I32, SpecCRegister.code_of (conv_result l f)) st) /\ arrs st = zmem u8' (inserted has_ (conv_result l f) name).
    Proof.
      intros u8 name N0 LU RM. pose proof (z0 _ l) as L0. assert (ZL : zlen (l ++ [0]) = zlen l + 1) by (rewrite zlen_app; reflexivity).
      assert (SL : forall a r, ~ In 0 a -> u32_strlen (map Some (a ++ [0]) ++ r) = Val (zlen a)).
      { clear. induction a as [|c a IH]; intros r N; [reflexivity|]. cbn [app map]. unfold u32_strlen; fold u32_strlen. replace (c =? 0) with false by (symmetry; apply Z.eqb_neq; intros ->; apply N; left; reflexivity).
        rewrite IH by (intros Q; apply N; right; exact Q). cbn [rbind]. rewrite zlen_cons. replace (zlen a + 1) with (1 + zlen a) by lia. reflexivity. }
      specialize (SL l rest N0). pose proof (part_front (l ++ [0]) rest) as PP. rewrite ZL in PP.
      destruct (conv_runs zs (ECall "u32_to_u8" ["input"] [int 0; EBin Add (ECall "u32_strlen" ["input"] []) (int 1)]) (ECall "u32_to_u8 result" ["input"] [int 0; EBin Add (ECall "u32_strlen" ["input"] []) (int 1); EVar "k"]) l f has_ LL LF) with (k := @None Z) (u := u8) (nm := name) as (rc' & k' & u' & RR);
        [| |reflexivity|reflexivity|reflexivity|reflexivity|reflexivity|ff|kk1|ff|reflexivity|reflexivity|reflexivity|reflexivity|exact LU|exact RM|].
      - intros. exists O. cc. rewrite w_len32, SL. cbn. change (rt "u32_strlen") with U64. cc. rewrite (u64_id (zlen l + 1)) by (unfold two64; lia). rewrite w_32. unfold on_part. rewrite PP. reflexivity.
      - intros rc kk u nm a c EA B C. exists O. cc. rewrite w_len32, SL. cbn. change (rt "u32_strlen") with U64. cc. rewrite (u64_id (zlen l + 1)) by (unfold two64; lia). rewrite w_32_elt. unfold on_part. rewrite PP. cbn [rbind]. rewrite EA. cbn [element]. rewrite C. reflexivity.
      - exists (zs rc' k' u' (inserted has_ (conv_result l f) name)), u'. split; [exact RR|reflexivity].
    Qed.
    Definition imem (u32 u8 name : list (option Z)) : list (string * carr) := [("input", (U32, map Some l ++ rest)); ("input_u32", (U32, u32)); ("input_u8", (U8, u8)); ("output", (U8, name))].
    Definition is_ (rc k : option Z) (u32 u8 name : list (option Z)) : cst := mkst [("inlen", (U64, Some (zlen l))); ("flags", (I32, Some f)); ("has_output", (I32, Some (if has_ then 1 else 0))); ("rc", (I32, rc)); ("k", (U64, k))] (imem u32 u8 name).
    Lemma i_runs : forall u32 u8 name, zlen u32 = zlen l + 1 -> 4 * (zlen l + 1) <= zlen u8 -> room (conv_result l f) name ->
      exists st u32' u8', R (f_body c_4i2) (is_ None None u32 u8 name) (Ret (I32, SpecCRegister.code_of (conv_result l f)) st) /\ arrs st = imem u32' u8' (inserted has_ (conv_result l f) name).
    Proof.
      intros u32 u8 name L3 LU RM. pose proof (z0 _ l) as L0. assert (ZL : zlen (l ++ [0]) = zlen l + 1) by (rewrite zlen_app; reflexivity).
      set (X := map Some (l ++ [0])). pose proof (part_whole (l ++ [0])) as PP. rewrite ZL in PP. fold X in PP.
      destruct (conv_runs (fun rc k u nm => is_ rc k X u nm) (ECall "u32_to_u8" ["input_u32"] [int 0; EBin Add (EVar "inlen") (int 1)]) (ECall "u32_to_u8 result" ["input_u32"] [int 0; EBin Add (EVar "inlen") (int 1); EVar "k"]) l f has_ LL LF) with (k := Some (zlen l)) (u := u8) (nm := name) as (rc' & k' & u' & RR);
        [| |reflexivity|reflexivity|reflexivity|reflexivity|reflexivity|ff|kk1|ff|reflexivity|reflexivity|reflexivity|reflexivity|exact LU|exact RM|].
      - intros. exists O. cc. rewrite (u64_id (zlen l + 1)) by (unfold two64; lia). rewrite w_32. unfold on_part. rewrite PP. reflexivity.
      - intros rc kk u nm a c EA B C. exists O. cc. rewrite (u64_id (zlen l + 1)) by (unfold two64; lia). rewrite w_32_elt. unfold on_part. rewrite PP. cbn [rbind]. rewrite EA. cbn [element]. rewrite C. reflexivity.
      - exists (is_ rc' k' X u' (inserted has_ (conv_result l f) name)), X, u'. split; [|reflexivity].
        assert (exists x, skipn (length l) u32 = [x]) as (x & SK). { pose proof (skipn_length (length l) u32) as E. unfold zlen in L3. replace (length u32 - length l)%nat with 1%nat in E by lia. destruct (skipn (length l) u32) as [|x [|y r] ]; [discriminate E|exists x; reflexivity|discriminate E]. }
        eapply (runs_seq rt cl mono).
        { apply (fill_front (fun kk arr => is_ None kk arr u8 name) "input_u32" _ _ U32 U32 l); [ff|kk1|ff|ff|ff|ff| | |lia|unfold two64; lia].
          - intros kk arr b B C. eapply (ev_idx rt cl); [reflexivity|exists O; reflexivity|]. cbn [snd]. apply cell_front. exact C.
          - apply Forall_forall. intros c _. reflexivity. }
        assert (SX : set_cell (in_front l u32) (zlen l) 0 = Val X). { unfold in_front. rewrite SK, (set_c (map Some l) x [] 0 (zlen l)) by apply zlen_map. unfold X. rewrite map_app. reflexivity. }
        eapply (runs_seq rt cl mono). { exists O. split; [|discriminate]. cc. rewrite SX. cbn. reflexivity. }
        exact RR.
    Qed.
    (** idn2_to_ascii_4i. *)
    Definition jmem (o arr : list (option Z)) : list (string * carr) := [("input", (U32, map Some l ++ rest)); ("out", (U8, o)); ("output", (U8, arr))].
    Definition js (rc len k : option Z) (o arr : list (option Z)) : cst := mkst [("inlen", (U64, Some (zlen l))); ("flags", (I32, Some f)); ("has_output", (I32, Some (if has_ then 1 else 0))); ("rc", (I32, rc)); ("len", (U64, len)); ("k", (U64, k))] (jmem o arr).
    Definition four_code : Z := match four l f with inl rc => rc | inr t => if 63 <? zlen t then IDN2_TOO_BIG_DOMAIN else 0 end.
    Definition four_array (arr : list (option Z)) : list (option Z) := match four l f with inr t => if has_ && (zlen t <=? 63) then in_front t arr else arr | inl _ => arr end.
    Lemma j_runs : forall o arr, match four l f with inl rc => rc <> 0 | inr t => ~ In 0 t /\ zlen t <= 254 end -> 256 <= zlen o -> (has_ = true -> 63 <= zlen arr) ->
      exists st o', R (f_body c_4i) (js None None None o arr) (Ret (I32, four_code) st) /\ arrs st = jmem o' (four_array arr).
    Proof.
      intros o arr HR LO LA. pose proof (z0 _ l) as L0. pose proof (part_front l rest) as PP. unfold four_code, four_array.
      assert (CALL : R (SExp (EAsg "rc" (ECall "idn2_to_ascii_4i2" ["input"] [EVar "inlen"; EVar "flags"]))) (js None None None o arr) (Norm (js (Some (match four l f with inl rc => rc | inr _ => 0 end)) None None o arr))).
      { eapply (runs_exp rt cl). exists O. cc. rewrite w_four. unfold on_part. rewrite PP. cbn. change (rt "idn2_to_ascii_4i2") with I32. cc. reflexivity. }
      destruct (four l f) as [e|t] eqn:E4.
      - exists (js (Some e) None None o arr), o. split; [|reflexivity]. eapply (runs_seq rt cl mono); [exact CALL|]. eapply (runs_seq rt cl mono). { eapply (runs_if rt cl mono); [exists O; cc; reflexivity|]. cbn [snd]. unfold IDN2_OK. replace (e =? 0) with false by lia. apply runs_skip. }
        eapply (runs_ret rt cl). exists O. reflexivity.
      - destruct HR as (N0 & LT). pose proof (z0 _ t) as T0. assert (ZT : zlen (t ++ [0]) = zlen t + 1) by (rewrite zlen_app; reflexivity). set (X := in_front (t ++ [0]) o).
        assert (CX : cstr X = Val t) by (apply cstr_front; exact N0).
        set (S1 := js (Some 0) (Some (zlen t)) (Some (zlen (t ++ [0]))) X arr).
        assert (PRE : forall st oo, R st S1 oo -> R (SSeq (fill "out" (int 0) (ECall "idn2_to_ascii_4i2 size" ["input"] [EVar "inlen"; EVar "flags"]) (ECall "idn2_to_ascii_4i2 *output" ["input"] [EVar "inlen"; EVar "flags"; EVar "k"]))
          (SSeq (SExp (EAsg "len" (ECall "strlen" ["out"] []))) st)) (js (Some 0) None None o arr) oo).
        { intros st oo H. eapply (runs_seq rt cl mono).
          { apply (fill_front (fun kk a => js (Some 0) None kk a arr) "out" _ _ U8 U8 (t ++ [0])); [ff|kk1|ff|ff|ff| | |apply byte_cast|lia|unfold two64; lia].
            - intros kk a B. exists O. cc. rewrite w_four_len. unfold on_part. rewrite PP. cbn [rbind]. rewrite E4. reflexivity.
            - intros kk a c B C. exists O. cc. rewrite w_four_elt. unfold on_part. rewrite PP. cbn [rbind]. rewrite E4. cbn [elt_sum]. rewrite C. reflexivity. }
          fold X. eapply (runs_seq rt cl mono). { eapply (runs_exp rt cl). exists O. cc. rewrite w_strlen, CX. cbn. change (rt "strlen") with U64. cc. reflexivity. } exact H. }
        assert (GT : evals rt cl (EBin Gt (EVar "len") (int 63)) S1 (I32, if 63 <? zlen t then 1 else 0) S1) by (exists O; unfold S1; cc; rewrite ?Z.gtb_ltb; destruct (63 <? zlen t); reflexivity).
        assert (EQ : evals rt cl (EBin Eq (EVar "rc") (int IDN2_OK)) (js (Some 0) None None o arr) (I32, 1) (js (Some 0) None None o arr)) by (exists O; reflexivity).
        destruct (63 <? zlen t) eqn:G.
        + replace (has_ && (zlen t <=? 63)) with false by (destruct has_; cbn; lia).
          exists (js (Some IDN2_TOO_BIG_DOMAIN) (Some (zlen t)) (Some (zlen (t ++ [0]))) X arr), X. split; [|reflexivity].
          eapply (runs_seq rt cl mono); [exact CALL|]. eapply (runs_seq rt cl mono). { eapply (runs_if rt cl mono); [exact EQ|]. apply PRE. eapply (runs_if rt cl mono); [exact GT|]. cbn [snd Z.eqb]. eapply (runs_exp rt cl). exists O. cc. reflexivity. }
          eapply (runs_ret rt cl). exists O. reflexivity.
        + replace (has_ && (zlen t <=? 63)) with has_ by (destruct has_; cbn; lia).
          assert (HE : evals rt cl (EVar "has_output") S1 (I32, if has_ then 1 else 0) S1) by (exists O; reflexivity).
          destruct has_ eqn:HH.
          * exists (js (Some 0) (Some (zlen t)) (Some (zlen t)) X (in_front t arr)), X. split; [|unfold js; reflexivity].
            eapply (runs_seq rt cl mono); [exact CALL|]. eapply (runs_seq rt cl mono).
            { eapply (runs_if rt cl mono); [exact EQ|]. apply PRE. eapply (runs_if rt cl mono); [exact GT|]. eapply (runs_if rt cl mono); [exact HE|]. cbn [snd Z.eqb]. unfold S1.
              apply (fill_front (fun kk a => js (Some 0) (Some (zlen t)) kk X a) "output" _ _ U8 U8 t); [ff|kk1|ff|ff|ff|ff| |apply byte_cast|specialize (LA eq_refl); lia|unfold two64; lia].
              intros kk a c B C. eapply (ev_idx rt cl); [reflexivity|exists O; reflexivity|]. cbn [snd]. unfold X, in_front. rewrite map_app, <- app_assoc. apply cell_front. exact C. }
            eapply (runs_ret rt cl). exists O. reflexivity.
          * exists S1, X. split; [|reflexivity].
            eapply (runs_seq rt cl mono); [exact CALL|]. eapply (runs_seq rt cl mono).
            { eapply (runs_if rt cl mono); [exact EQ|]. apply PRE. eapply (runs_if rt cl mono); [exact GT|]. eapply (runs_if rt cl mono); [exact HE|]. apply runs_skip. }
            eapply (runs_ret rt cl). exists O. reflexivity.
    Qed.
  End Four.
  Lemma size_runs : forall n x, 0 <= n -> n + 1 < 4611686018427387904 -> exists st, R (f_body c_4i2_size) (mkst [("inlen", (U64, Some n))] [("malloc", (U64, [x]))]) (Ret (I32, 0) st) /\ arrs st = [("malloc", (U64, [Some (4 * (n + 1))]))].
  Proof.
    intros n x N0 N1. eexists. split.
    - eapply (runs_seq rt cl mono). { exists O. split; [|discriminate]. cc. rewrite (u64_id (n + 1)) by (unfold two64; lia). rewrite (u64_id ((n + 1) * 4)) by (unfold two64; lia). rewrite (set_c [] x [] _ 0 eq_refl). cbn. reflexivity. }
      eapply (runs_ret rt cl). exists O. reflexivity.
    - replace (4 * (n + 1)) with ((n + 1) * 4) by lia. reflexivity.
  Qed.
End Wrap.
