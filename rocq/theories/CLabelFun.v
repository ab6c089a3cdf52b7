(** The text of label(). *)
From Coq Require Import String.
From Verif Require Import Base PunyBase Uenv DataTypes SpecUtf8 SpecNfc SpecLookup SpecLabel SpecToAscii Utf8 Utf8Proofs Puny PunyBase Idna Lookup LabelProofs LookupProofs LookupIdem CostPuny CostLabel NonZero
  CLang CLogic CLeaf CDecode CEncode CLabel CBidi CMapData CLookup SpecCPuny SpecCLookup CLookupMap CLookupName.
Local Open Scope string_scope.
Local Open Scope list_scope.
Local Open Scope Z_scope.
Arguments calls : simpl never.
Arguments types : simpl never.
Arguments lookup_program : simpl never.
Arguments Z.land : simpl never.
Arguments Z.lor : simpl never.

Arguments ace_prefix : simpl never.
Lemma cell0 : forall x, cell [Some x] 0 = Val x. Proof. reflexivity. Qed.
Ltac c0 := cc; rewrite ?cell0; cc.

Ltac nolor := repeat (match goal with |- context [Z.lor ?a ?b <? 0] => replace (Z.lor a b <? 0) with false by reflexivity end; cbn).
Lemma prefix_more : forall x (t : list (option Z)), prefix (map Some x ++ t) (zlen x) = Val x.
Proof.
  intros x t. unfold prefix. rewrite zlen_app, zlen_map. pose proof (z0 _ x). pose proof (z0 _ t). replace ((0 <=? zlen x) && (zlen x <=? zlen x + zlen t)) with true by lia.
  unfold zlen. rewrite Nat2Z.id. rewrite <- (map_length (@Some Z) x), firstn_app, firstn_all, Nat.sub_diag, firstn_O, app_nil_r. clear. induction x as [|c x IH]; [reflexivity|]. cbn [map fold_right]. rewrite IH. reflexivity.
Qed.
Lemma part_more : forall a x (t : list (option Z)), part (map Some (a ++ x) ++ t) (zlen a) (zlen x) = Val x.
Proof.
  intros a x t. unfold part. rewrite zlen_app, zlen_map, zlen_app. pose proof (z0 _ a). pose proof (z0 _ x). pose proof (z0 _ t). replace ((0 <=? zlen a) && (zlen a <=? zlen a + zlen x + zlen t)) with true by lia.
  rewrite map_app, <- app_assoc. unfold zlen at 1. rewrite Nat2Z.id, <- (map_length (@Some Z) a), skipn_app, skipn_all, Nat.sub_diag. cbn [app skipn]. apply prefix_more.
Qed.
Lemma part_front : forall x (t : list (option Z)), part (map Some x ++ t) 0 (zlen x) = Val x.
Proof. intros x t. exact (part_more [] x t). Qed.
Lemma part_whole : forall x, part (map Some x) 0 (zlen x) = Val x.
Proof. intros x. pose proof (part_front x []) as H. rewrite app_nil_r in H. exact H. Qed.
Lemma part_back : forall a x, part (map Some (a ++ x)) (zlen a) (zlen x) = Val x.
Proof. intros a x. pose proof (part_more a x []) as H. rewrite app_nil_r in H. exact H. Qed.
Lemma cell_nth : forall (t q : list Z) b r, t = q ++ b :: r -> cell (map Some t) (zlen q) = Val b.
Proof. intros. eapply cell_at. eassumption. Qed.

Lemma counted_all : forall a, ~ In 0 a -> counted (length a) a = a.
Proof. induction a as [|x a IH]; intros N; [reflexivity|]. cbn [counted length]. cbn [In] in N. replace (x =? 0) with false by (symmetry; apply Z.eqb_neq; intuition). rewrite IH by tauto. reflexivity. Qed.
Section Fill.
  Variables (rt : string -> cty) (cl : nat -> string -> list (cty * Z) -> list carr -> res Z).
  Hypothesis mono : forall n m f vs a, (n <= m)%nat -> cl n f vs a <> Fuel -> cl m f vs a = cl n f vs a.
  Notation R := (runs rt cl).
  Lemma fill_runs : forall (ST : option Z -> list (option Z) -> cst) a i n e o t L,
    (forall k arr, zlen arr = L -> R (SExp (EAsg "k" (int 0))) (ST k arr) (Norm (ST (Some 0) arr))) ->
    (forall k arr, 0 <= k <= zlen t -> zlen arr = L -> evals rt cl (EBin Lt (EVar "k") n) (ST (Some k) arr) (I32, if k <? zlen t then 1 else 0) (ST (Some k) arr)) ->
    (forall k b arr arr', 0 <= k < zlen t -> cell (map Some t) k = Val b -> In b t -> zlen arr = L -> set_cell arr (o + k) b = Val arr' -> R (SStore a (EBin Add i (EVar "k")) e) (ST (Some k) arr) (Norm (ST (Some k) arr'))) ->
    (forall k arr, 0 <= k < zlen t -> R (SExp (EPost "k")) (ST (Some k) arr) (Norm (ST (Some (k + 1)) arr))) ->
    forall pre rest k0, zlen pre = o -> zlen t <= zlen rest -> zlen (pre ++ rest) = L ->
    R (fill a i n e) (ST k0 (pre ++ rest)) (Norm (ST (Some (zlen t)) (pre ++ map Some t ++ skipn (length t) rest))).
  Proof.
    intros ST a i n e o t L H0 H1 H2 H3.
    assert (G : forall r q pre rest, t = q ++ r -> zlen pre = o + zlen q -> zlen r <= zlen rest -> zlen (pre ++ rest) = L ->
      R (SLoop (EBin Lt (EVar "k") n) (SExp (EPost "k")) (SStore a (EBin Add i (EVar "k")) e)) (ST (Some (zlen q)) (pre ++ rest)) (Norm (ST (Some (zlen t)) (pre ++ map Some r ++ skipn (length r) rest)))).
    { induction r as [|b r IH]; intros q pre rest E ZP ZR ZL; pose proof (f_equal zlen E) as Z1; rewrite zlen_app in Z1; pose proof (z0 _ q).
      - change (zlen (@nil Z)) with 0 in Z1. replace (zlen q) with (zlen t) by lia. cbn [map app length skipn]. eapply (runs_loop_end rt cl mono); [apply H1; [lia|exact ZL]|]. cbn [snd]. rewrite Z.ltb_irrefl. reflexivity.
      - rewrite zlen_cons in Z1. pose proof (z0 _ r). destruct rest as [|y rest]; [rewrite zlen_cons in ZR; change (zlen (@nil (option Z))) with 0 in ZR; lia|]. rewrite !zlen_cons in ZR.
        eapply (runs_loop_next rt cl mono).
        + apply H1; [lia|exact ZL].
        + cbn [snd]. replace (zlen q <? zlen t) with true by lia. discriminate.
        + apply (H2 (zlen q) b); [lia|exact (cell_nth t q b r E)|rewrite E; apply in_or_app; right; left; reflexivity|exact ZL|]. rewrite <- ZP. apply set_cell_app.
        + apply H3. lia.
        + specialize (IH (q ++ [b]) (pre ++ [Some b]) rest ltac:(rewrite <- app_assoc; exact E)). rewrite !zlen_app in IH. change (zlen [b]) with 1 in IH. change (zlen [Some b]) with 1 in IH.
          rewrite <- !app_assoc in IH. cbn [app length skipn map] in IH |- *. apply IH; try lia. rewrite zlen_app, zlen_cons in ZL. lia. }
    intros pre rest k0 ZP ZR ZL. unfold fill. eapply (runs_seq rt cl mono); [apply H0; exact ZL|]. apply (G t [] pre rest); [reflexivity|change (zlen (@nil Z)) with 0; lia|exact ZR|exact ZL].
  Qed.
End Fill.

Section Label.
  Variable U : uenv.
  Variable lab : list Z -> Z -> Z + list Z.
  Notation P := (lookup_program U lab).
  Notation rt := (types P).
  Notation cl := (calls P 2).
  Notation R := (runs rt cl).
  Lemma lf_mono : forall n m f vs a, (n <= m)%nat -> cl n f vs a <> Fuel -> cl m f vs a = cl n f vs a. Proof. intros; now apply calls_mono. Qed.
  Lemma rc_part : forall g p n l x, part l p n = Val x -> rc_of g p n l = code (g x).
  Proof. intros g p n l x H. unfold rc_of, on_part. rewrite H. reflexivity. Qed.
  Lemma len_part : forall g p n l x d, part l p n = Val x -> g x = Ok d -> len_of g p n l = Val (zlen d).
  Proof. intros g p n l x d H G. unfold len_of, on_part. rewrite H. cbn [rbind]. rewrite G. reflexivity. Qed.
  Lemma elt_part : forall g p n k l x d, part l p n = Val x -> g x = Ok d -> elt_of g p n k l = cell (map Some d) k.
  Proof. intros g p n k l x d H G. unfold elt_of, on_part. rewrite H. cbn [rbind]. rewrite G. reflexivity. Qed.

  Lemma lib_ascii : forall n a t l m, cl n "_idn2_ascii_p" [(a, m)] [(t, l)] = on_part (fun s => Val (if ascii_p s then 1 else 0)) 0 m l. Proof. reflexivity. Qed.
  Lemma lib_memcmp : forall n a t l m, cl n "memcmp xn--" [(a, m)] [(t, l)] = on_part (fun s => Val (if list_eqb s ace_prefix then 0 else 1)) 0 m l. Proof. reflexivity. Qed.
  Lemma lib_dec : forall n a b c t u l o p m x, cl n "punycode_decode" [(a, p); (b, m); (c, x)] [(t, l); (u, o)] = rc_of (dec_call x o) p m l. Proof. reflexivity. Qed.
  Lemma lib_dec_len : forall n a b c t u l o p m x, cl n "punycode_decode *output_length" [(a, p); (b, m); (c, x)] [(t, l); (u, o)] = len_of (dec_call x o) p m l. Proof. reflexivity. Qed.
  Lemma lib_dec_elt : forall n a b c d t u l o p m x k, cl n "punycode_decode output" [(a, p); (b, m); (c, x); (d, k)] [(t, l); (u, o)] = elt_of (dec_call x o) p m k l. Proof. reflexivity. Qed.
  Lemma lib_u8 : forall n a b t l p m, cl n "u32_to_u8" [(a, p); (b, m)] [(t, l)] = on_part (fun s => Val (match u32_to_u8 s with Some a => zlen a | None => -1 end)) p m l. Proof. reflexivity. Qed.
  Lemma lib_u8_elt : forall n a b c t l p m k, cl n "u32_to_u8 result" [(a, p); (b, m); (c, k)] [(t, l)] = on_part (fun s => rbind (ace_of s) (fun a => cell (map Some a) k)) p m l. Proof. reflexivity. Qed.
  Lemma lib_nfc : forall n a b t l m q, cl n "_idn2_u8_to_u32_nfc" [(a, m); (b, q)] [(t, l)] = rc_of (nfc_call U q) 0 m l. Proof. reflexivity. Qed.
  Lemma lib_nfc_len : forall n a b t l m q, cl n "_idn2_u8_to_u32_nfc *outlen" [(a, m); (b, q)] [(t, l)] = len_of (nfc_call U q) 0 m l. Proof. reflexivity. Qed.
  Lemma lib_nfc_elt : forall n a b c t l m q k, cl n "_idn2_u8_to_u32_nfc *out" [(a, m); (b, q); (c, k)] [(t, l)] = elt_of (nfc_call U q) 0 m k l. Proof. reflexivity. Qed.
  Lemma lib_enc : forall n a b c t u l o m x i, cl n "punycode_encode" [(a, m); (b, x); (c, i)] [(t, l); (u, o)] = rc_of (enc_call x i o) 0 m l. Proof. reflexivity. Qed.
  Lemma lib_enc_len : forall n a b c t u l o m x i, cl n "punycode_encode *output_length" [(a, m); (b, x); (c, i)] [(t, l); (u, o)] = len_of (enc_call x i o) 0 m l. Proof. reflexivity. Qed.
  Lemma lib_enc_elt : forall n a b c d t u l o m x i k, cl n "punycode_encode output" [(a, m); (b, x); (c, i); (d, k)] [(t, l); (u, o)] = elt_of (enc_call x i o) 0 m k l. Proof. reflexivity. Qed.
  Lemma lib_cmp : forall n a t u l o m, cl n "u32_cmp" [(a, m)] [(t, l); (u, o)] = on_part (fun s => on_part (fun t => Val (if list_eqb s t then 0 else 1)) 0 m o) 0 m l. Proof. reflexivity. Qed.
  Lemma lib_test : forall n a b c t l w p m, cl n "_idn2_label_test" [(a, w); (b, p); (c, m)] [(t, l)] = on_part (fun s => code (label_test U w s)) p m l. Proof. reflexivity. Qed.

  Variables (s : list Z) (f : Z).
  Hypothesis K : nfc_ok U.
  Hypothesis FF : at_most_fourfold U.
  Hypothesis PS : plain_label s.
  Hypothesis LS : 4 * zlen s < two64.
  Hypothesis F : 0 <= f < 2147483648.
  Definition lmem (dst : list (option Z)) (dl : Z) (lu sa pp : list (option Z)) : list (string * carr) :=
    [("src", (U8, map Some s)); ("dst", (U8, dst)); ("dstlen", (U64, [Some dl])); ("label_u32", (U32, lu)); ("src_allocated", (U8, sa)); ("p", (U32, pp))].
  Definition ls (sl : Z) (plen : option Z) (al : Z) (rc : option Z) (ck : Z) (tm : option Z) (so l32 : Z) (k : option Z) (dst : list (option Z)) (dl : Z) (lu sa pp : list (option Z)) : cst :=
    mkst [("srclen", (U64, Some sl)); ("flags", (I32, Some f)); ("plen", (U64, plen)); ("allocated", (I32, Some al)); ("rc", (I32, rc)); ("check_roundtrip", (I32, Some ck)); ("tmpl", (U64, tm));
          ("srclen_org", (U64, Some so)); ("label32_len", (U64, Some l32)); ("k", (U64, k))] (lmem dst dl lu sa pp).
  Definition lb_main : stmt := Eval cbn -[fill on_src int] in match f_body c_label with SSeq _ (SSeq _ (SSeq _ (SSeq _ s))) => s | s => s end.
  Definition lb_head : stmt := Eval cbn -[fill on_src int] in match lb_main with SSeq a _ => a | s => s end.
  Definition lb_tail : stmt := Eval cbn -[fill on_src int] in match lb_main with SSeq _ s => s | s => s end.
  (** From dst [0] = 'x' on. *)
  Definition lb_put : stmt := Eval cbn -[fill on_src int] in match lb_tail with SSeq _ (SSeq _ (SSeq _ (SSeq _ (SSeq _ s)))) => s | s => s end.
  (** After *dstlen = 4 + tmpl. *)
  Definition lb_check : stmt := Eval cbn -[fill on_src int] in match lb_put with SSeq _ (SSeq _ (SSeq _ (SSeq _ (SSeq _ (SSeq _ (SSeq _ (SSeq _ (SSeq _ (SSeq _ s))))))))) => s | s => s end.

  Lemma s_ok : 0 <= zlen s < two64. Proof. pose proof (z0 _ s). unfold two64 in *. lia. Qed.
  (** p as an array. *)
  Section Put.
    Variables (sl plen al ck so l32 : Z) (rc tm k : option Z) (lu sa : list (option Z)) (p : list Z) (rest : list (option Z)).
    Hypothesis LP : zlen p < two64.
    Lemma set_c : forall (a : list (option Z)) x r y i, zlen a = i -> set_cell (a ++ x :: r) i y = Val (a ++ Some y :: r).
    Proof. intros a x r y i <-. apply set_cell_app. Qed.
    Lemma put_runs : forall a b c d r, zlen r = 59 ->
      match puny_encode p 59 59 with
      | Ok enc => exists k' rest', forall o, R lb_check (ls sl (Some (zlen p)) al (Some 0) ck (Some (zlen enc)) so l32 (Some k') (map Some (ace_prefix ++ enc) ++ rest') (4 + zlen enc) lu sa (map Some p ++ rest)) o ->
          R lb_put (ls sl (Some (zlen p)) al rc ck tm so l32 k (a :: b :: c :: d :: r) 63 lu sa (map Some p ++ rest)) o
      | Fail e => e <> 0 -> exists dst, R lb_put (ls sl (Some (zlen p)) al rc ck tm so l32 k (a :: b :: c :: d :: r) 63 lu sa (map Some p ++ rest)) (Ret (I32, e) (ls sl (Some (zlen p)) al (Some e) ck (Some 59) so l32 k dst 63 lu sa (map Some p ++ rest)))
      | _ => True
      end.
    Proof.
      intros a b c d r R59. set (D := Some 120 :: Some 110 :: Some 45 :: Some 45 :: r). assert (ZD : zlen D - 4 = 59) by (unfold D; rewrite !zlen_cons; lia).
      assert (PR : forall st o, R st (ls sl (Some (zlen p)) al rc ck (Some 59) so l32 k D 63 lu sa (map Some p ++ rest)) o ->
        R (SSeq (SStore "dst" (int 0) (int 120)) (SSeq (SStore "dst" (int 1) (int 110)) (SSeq (SStore "dst" (int 2) (int 45)) (SSeq (SStore "dst" (int 3) (int 45)) (SSeq (SExp (EAsg "tmpl" (EBin Sub (EIdx "dstlen" (int 0)) (int 4)))) st)))))
          (ls sl (Some (zlen p)) al rc ck tm so l32 k (a :: b :: c :: d :: r) 63 lu sa (map Some p ++ rest)) o).
      { intros st o H.
        eapply (runs_seq rt cl lf_mono). { exists O. split; [|discriminate]. cc. rewrite (set_c [] a (b :: c :: d :: r) _ 0 eq_refl). cbn. reflexivity. }
        eapply (runs_seq rt cl lf_mono). { exists O. split; [|discriminate]. cc. rewrite (set_c [Some 120] b (c :: d :: r) _ 1 eq_refl). cbn. reflexivity. }
        eapply (runs_seq rt cl lf_mono). { exists O. split; [|discriminate]. cc. rewrite (set_c [Some 120; Some 110] c (d :: r) _ 2 eq_refl). cbn. reflexivity. }
        eapply (runs_seq rt cl lf_mono). { exists O. split; [|discriminate]. cc. rewrite (set_c [Some 120; Some 110; Some 45] d r _ 3 eq_refl). cbn. reflexivity. }
        eapply (runs_seq rt cl lf_mono). { eapply (runs_exp rt cl). exists O. cc. reflexivity. } exact H. }
      pose proof (part_front p rest) as PP.
      assert (ENC : forall DD, zlen DD = zlen D -> enc_call 59 4 DD p = puny_encode p 59 59) by (intros DD E; unfold enc_call; rewrite E, ZD; reflexivity).
      assert (E1 : forall DD kk st2, zlen DD = zlen D -> evals rt cl (ECall "punycode_encode" ["p"; "dst"] [EVar "plen"; EVar "tmpl"; int 4]) (ls sl (Some (zlen p)) al st2 ck (Some 59) so l32 kk DD 63 lu sa (map Some p ++ rest))
        (I32, match puny_encode p 59 59 with Fail e => e | _ => 0 end) (ls sl (Some (zlen p)) al st2 ck (Some 59) so l32 kk DD 63 lu sa (map Some p ++ rest)) \/ (puny_encode p 59 59 = Undef \/ puny_encode p 59 59 = NoFuel)).
      { intros DD kk st2 E. destruct (puny_encode p 59 59) eqn:Q; [left|left|right; auto..]; exists O; cc; rewrite lib_enc, (rc_part _ _ _ _ _ PP), (ENC DD E); cbn; rewrite ?Q; reflexivity. }
      unfold lb_put. destruct (puny_encode p 59 59) as [enc|e| |] eqn:Q; [| |exact I|exact I].
      - exists (zlen enc), (skipn (length enc) r). intros o H. apply PR. assert (LE : zlen enc <= 59) by (eapply encode_len; [|exact Q]; lia). pose proof (z0 _ enc).
        eapply (runs_seq rt cl lf_mono). { eapply (runs_exp rt cl). destruct (E1 D k rc eq_refl) as [(n & X)|[X|X] ]; [|congruence..]. exists n. cbn [eval] in *. rewrite X. cc. reflexivity. }
        eapply (runs_seq rt cl lf_mono). { eapply (runs_if rt cl lf_mono); [exists O; cc; reflexivity|]. apply runs_skip. }
        assert (LN : forall DD kk, zlen DD = zlen D -> evals rt cl (ECall "punycode_encode *output_length" ["p"; "dst"] [EVar "plen"; EVar "tmpl"; int 4]) (ls sl (Some (zlen p)) al (Some 0) ck (Some 59) so l32 kk DD 63 lu sa (map Some p ++ rest))
          (U64, zlen enc) (ls sl (Some (zlen p)) al (Some 0) ck (Some 59) so l32 kk DD 63 lu sa (map Some p ++ rest))).
        { intros DD kk E. exists O. cc. rewrite lib_enc_len, (len_part _ _ _ _ p enc PP) by exact (ENC DD E). reflexivity. }
        eapply (runs_seq rt cl lf_mono).
        { change D with (map Some ace_prefix ++ r).
          apply (fill_runs rt cl lf_mono (fun kk DD => ls sl (Some (zlen p)) al (Some 0) ck (Some 59) so l32 kk DD 63 lu sa (map Some p ++ rest)) "dst" (int 4) _ _ 4 enc (zlen D)); [| | | |reflexivity|lia|reflexivity].
          - intros kk arr _. eapply (runs_exp rt cl). exists O. cc. reflexivity.
          - intros kk arr B E. exists O. cc. rewrite lib_enc_len, (len_part _ _ _ _ p enc PP) by exact (ENC arr E). reflexivity.
          - intros kk y arr arr' B C IY E S. exists O. split; [|discriminate]. cc. rewrite (u64_id (4 + kk)) by (unfold two64; lia). rewrite lib_enc_elt, (elt_part _ _ _ _ _ p enc PP) by exact (ENC arr E). rewrite C. cbn.
            change (rt "punycode_encode output") with U8. cbn. rewrite S. reflexivity.
          - intros kk arr B. eapply (runs_exp rt cl). exists O. cc. rewrite (u64_id (kk + 1)) by (unfold two64; lia). reflexivity. }
        rewrite app_assoc, <- map_app. set (DD := map Some (ace_prefix ++ enc) ++ skipn (length enc) r).
        assert (ZZ : zlen DD = zlen D). { unfold DD, D. rewrite zlen_app, zlen_map, zlen_app, !zlen_cons. change (zlen ace_prefix) with 4. unfold zlen in *. rewrite skipn_length. lia. }
        eapply (runs_seq rt cl lf_mono). { eapply (runs_exp rt cl). destruct (LN DD (Some (zlen enc)) ZZ) as (n & X). exists n. cbn [eval] in *. rewrite X. cc. reflexivity. }
        eapply (runs_seq rt cl lf_mono). { exists O. split; [|discriminate]. cc. rewrite (u64_id (4 + zlen enc)) by (unfold two64; lia). cc. reflexivity. }
        exact H.
      - intros E0. exists D. apply PR.
        eapply (runs_seq rt cl lf_mono). { eapply (runs_exp rt cl). destruct (E1 D k rc eq_refl) as [(n & X)|[X|X] ]; [|congruence..]. exists n. cbn [eval] in *. rewrite X. cc. reflexivity. }
        eapply (runs_seq_stop rt cl); [|exact Logic.I]. eapply (runs_if rt cl lf_mono); [exists O; cc; reflexivity|]. cbn [snd]. change IDN2_OK with 0. replace (e =? 0) with false by lia. cbn.
        eapply (runs_ret rt cl). exists O. cc. reflexivity.
    Qed.
  End Put.

  (** A flag. *)
  Lemma lf_not : forall st k, get_var "flags" st = Val (I32, f) -> 0 <= k -> evals rt cl (ENot (EBin BAnd (EVar "flags") (int k))) st (I32, if has f k then 0 else 1) st.
  Proof. intros st k G Q. exists O. cbn. rewrite G. cbn. unfold cast. cbn. replace ((f <? 0) || (k <? 0)) with false by lia. cbn. unfold has. destruct (Z.land f k =? 0); reflexivity. Qed.
  Definition checked (ck : Z) (p enc : list Z) : out (list Z) :=
    if ck =? 1 then (if casecmp_eq s (ace_prefix ++ enc) then Ok (ace_prefix ++ enc) else Fail IDN2_ALABEL_ROUNDTRIP_FAILED)
    else if negb (has f IDN2_NO_ALABEL_ROUNDTRIP) then
      match puny_decode enc 63 63 with
      | Ok l => if list_eqb p l then Ok (ace_prefix ++ enc) else Fail IDN2_ALABEL_ROUNDTRIP_FAILED
      | Fail _ => Fail IDN2_ALABEL_ROUNDTRIP_FAILED | Undef => Undef | NoFuel => NoFuel end
    else Ok (ace_prefix ++ enc).
  Section Check.
    Variables (sl al : Z) (tm : option Z) (k : Z) (lu sa rest rest' : list (option Z)) (p enc : list Z).
    Hypothesis LP : zlen p < two64.
    Hypothesis LE : zlen enc <= 59.
    Hypothesis EB : Forall (fun b => 0 < b < 128) enc.
    Notation D := (map Some (ace_prefix ++ enc) ++ rest').
    Lemma enc0 : 0 <= zlen enc. Proof. apply z0. Qed.
    Lemma no_nul : ~ In 0 s /\ ~ In 0 (ace_prefix ++ enc) /\ Forall (fun b => 0 <= b <= 255) s /\ Forall (fun b => 0 <= b <= 255) (ace_prefix ++ enc).
    Proof.
      destruct PS as (B & _ & _). rewrite Forall_forall in B, EB. assert (A : Forall (fun b => 0 < b < 128) (ace_prefix ++ enc)). { apply Forall_app. split; [repeat constructor; lia|]. apply Forall_forall. exact EB. }
      rewrite Forall_forall in A. repeat split; try (apply Forall_forall; intros b Q); try (intros Q); try (apply B in Q; lia); apply A in Q; lia.
    Qed.
    Lemma call_cmp : zlen s = zlen (ace_prefix ++ enc) -> exists v N, (v =? 0) = casecmp_eq s (ace_prefix ++ enc) /\
      forall m, (N <= m)%nat -> cl m "c_strncasecmp" [(U64, zlen s)] [(U8, map Some s); (U8, D)] = Val v.
    Proof.
      intros E. destruct no_nul as (N1 & N2 & B1 & B2). pose proof s_ok as SO.
      destruct (compare_body U lab s (ace_prefix ++ enc) [] rest' B1 B2 (proj2 SO) (zlen s) ltac:(lia) ltac:(lia)) as (v & st & A & _ & V & Q). unfold ss, smem in A. rewrite app_nil_r in A.
      destruct (calls_run P 1 "c_strncasecmp" c_c_strncasecmp [(U64, zlen s)] [(U8, map Some s); (U8, D)] (I32, v) st eq_refl eq_refl eq_refl eq_refl A) as (N & C). exists v, N. split; [|exact C].
      assert (LL : length s = length (ace_prefix ++ enc)) by (unfold zlen in E; lia).
      assert (ZN : Z.to_nat (zlen s) = length s) by (unfold zlen; apply Nat2Z.id). rewrite ZN in Q. rewrite (counted_all s N1) in Q. rewrite LL, (counted_all _ N2) in Q.
      destruct (casecmp_eq s (ace_prefix ++ enc)) eqn:X.
      - apply casecmp_map in X. apply Z.eqb_eq. apply Q. exact X.
      - apply Z.eqb_neq. intros V0. apply Q in V0. assert (Y : casecmp_eq s (ace_prefix ++ enc) = true) by (apply casecmp_map; exact V0). congruence.
    Qed.
    Lemma check_ace : forall so l32 dl, so = zlen s -> dl = 4 + zlen enc ->
      R lb_check (ls sl (Some (zlen p)) al (Some 0) 1 tm so l32 (Some k) D dl lu sa (map Some p ++ rest))
        (Ret (I32, if casecmp_eq s (ace_prefix ++ enc) then 0 else IDN2_ALABEL_ROUNDTRIP_FAILED) (ls sl (Some (zlen p)) al (Some 0) 1 tm so l32 (Some k) D dl lu sa (map Some p ++ rest))).
    Proof.
      intros so l32 dl -> DL. set (ST := ls _ _ _ _ _ _ _ _ _ _ _ _ _ _). unfold lb_check. pose proof enc0 as E0. pose proof s_ok as SO. assert (ZA : zlen (ace_prefix ++ enc) = 4 + zlen enc) by (rewrite zlen_app; reflexivity).
      assert (C : evals rt cl (EOr (EBin Ne (EVar "srclen_org") (EIdx "dstlen" (int 0))) (ECall "c_strncasecmp" ["src"; "dst"] [EVar "srclen_org"])) ST (I32, if casecmp_eq s (ace_prefix ++ enc) then 0 else 1) ST).
      { destruct (zlen s =? dl) eqn:Q.
        - destruct (call_cmp ltac:(lia)) as (v & N & V & C). exists N. unfold ST. c0. rewrite Q. cbn. rewrite C by lia. cbn. rewrite V. destruct (casecmp_eq s (ace_prefix ++ enc)); reflexivity.
        - exists O. unfold ST. c0. rewrite Q. cbn. destruct (casecmp_eq s (ace_prefix ++ enc)) eqn:X; [|reflexivity]. apply casecmp_map in X. apply (f_equal (@length Z)) in X. rewrite !map_length in X. apply Z.eqb_neq in Q. unfold zlen in *. lia. }
      assert (CK : evals rt cl (EVar "check_roundtrip") ST (I32, 1) ST) by (exists O; reflexivity).
      destruct (casecmp_eq s (ace_prefix ++ enc)).
      - eapply (runs_seq rt cl lf_mono). { eapply (runs_if rt cl lf_mono); [exact CK|]. cbn [snd Z.eqb]. eapply (runs_if rt cl lf_mono); [exact C|]. apply runs_skip. } eapply (runs_ret rt cl). exists O. reflexivity.
      - eapply (runs_seq_stop rt cl); [|exact Logic.I]. eapply (runs_if rt cl lf_mono); [exact CK|]. cbn [snd Z.eqb]. eapply (runs_if rt cl lf_mono); [exact C|]. cbn [snd Z.eqb]. eapply (runs_ret rt cl). exists O. reflexivity.
    Qed.
    Lemma check_uni : forall so dl, zlen lu = 63 -> dl = 4 + zlen enc ->
      match checked 0 p enc with
      | Ok _ => exists st lu', R lb_check (ls sl (Some (zlen p)) al (Some 0) 0 tm so 63 (Some k) D dl lu sa (map Some p ++ rest)) (Ret (I32, 0) st) /\ arrs st = lmem D dl lu' sa (map Some p ++ rest)
      | Fail e => exists st lu', R lb_check (ls sl (Some (zlen p)) al (Some 0) 0 tm so 63 (Some k) D dl lu sa (map Some p ++ rest)) (Ret (I32, e) st) /\ arrs st = lmem D dl lu' sa (map Some p ++ rest)
      | _ => True
      end.
    Proof.
      intros so dl LU DL. unfold checked. cbn [Z.eqb]. unfold lb_check. pose proof enc0 as E0. set (ST := ls sl (Some (zlen p)) al (Some 0) 0 tm so 63 (Some k) D dl lu sa (map Some p ++ rest)).
      assert (CK : evals rt cl (EVar "check_roundtrip") ST (I32, 0) ST) by (exists O; reflexivity).
      pose proof (lf_not ST IDN2_NO_ALABEL_ROUNDTRIP eq_refl ltac:(discriminate)) as FN.
      destruct (has f IDN2_NO_ALABEL_ROUNDTRIP); cbn [negb].
      { exists ST, lu. split; [|reflexivity]. eapply (runs_seq rt cl lf_mono). { eapply (runs_if rt cl lf_mono); [exact CK|]. cbn [snd Z.eqb]. eapply (runs_if rt cl lf_mono); [exact FN|]. apply runs_skip. } eapply (runs_ret rt cl). exists O. reflexivity. }
      assert (PE : part D 4 (zlen enc) = Val enc) by exact (part_more ace_prefix enc rest').
      assert (U4 : u64 (dl - 4) = zlen enc) by (rewrite u64_id by (unfold two64; lia); lia).
      assert (LEN : forall l arr, puny_decode enc 63 63 = Ok l -> zlen arr = zlen lu -> len_of (dec_call 63 arr) 4 (zlen enc) D = Val (zlen l)).
      { intros l arr Q E. apply (len_part _ _ _ _ enc l PE). unfold dec_call. rewrite E, LU. exact Q. }
      match goal with |- context [SIf (ENot (EBin BAnd (EVar "flags") (int IDN2_NO_ALABEL_ROUNDTRIP))) ?x SSkip] => set (body := x) end.
      assert (GO : forall e lu', (exists st, R body ST (Ret (I32, e) st) /\ arrs st = lmem D dl lu' sa (map Some p ++ rest)) ->
        exists st lu', R (SSeq (SIf (EVar "check_roundtrip") (SIf (EOr (EBin Ne (EVar "srclen_org") (EIdx "dstlen" (int 0))) (ECall "c_strncasecmp" ["src"; "dst"] [EVar "srclen_org"])) (SReturn (int IDN2_ALABEL_ROUNDTRIP_FAILED)) SSkip)
          (SIf (ENot (EBin BAnd (EVar "flags") (int IDN2_NO_ALABEL_ROUNDTRIP))) body SSkip)) (SReturn (int IDN2_OK))) ST (Ret (I32, e) st) /\ arrs st = lmem D dl lu' sa (map Some p ++ rest)).
      { intros e lu' (st & X & Y). exists st, lu'. split; [|exact Y]. eapply (runs_seq_stop rt cl); [|exact Logic.I]. eapply (runs_if rt cl lf_mono); [exact CK|]. cbn [snd Z.eqb]. eapply (runs_if rt cl lf_mono); [exact FN|]. exact X. }
      destruct (puny_decode enc 63 63) as [l|e| |] eqn:Q; [| |exact Logic.I|exact Logic.I].
      - assert (DL2 : forall arr, zlen arr = zlen lu -> dec_call 63 arr enc = Ok l) by (intros arr E; unfold dec_call; rewrite E, LU; exact Q).
        assert (LL : zlen l <= 63) by (destruct (decoded enc l Q ltac:(unfold two64; lia)) as (X & _); exact X). pose proof (z0 _ l) as L0.
        set (LU' := map Some l ++ skipn (length l) lu).
        assert (ZL : zlen LU' = zlen lu). { unfold LU'. rewrite zlen_app, zlen_map. unfold zlen in *. rewrite skipn_length. lia. }
        assert (PR : forall st o, R st (ls sl (Some (zlen p)) al (Some 0) 0 tm so (zlen l) (Some (zlen l)) D dl LU' sa (map Some p ++ rest)) o ->
          R (SSeq (SExp (EAsg "rc" (ECall "punycode_decode" ["dst"; "label_u32"] [int 4; EBin Sub (EIdx "dstlen" (int 0)) (int 4); EVar "label32_len"])))
            (SSeq (SIf (EVar "rc") (SReturn (int IDN2_ALABEL_ROUNDTRIP_FAILED)) SSkip)
            (SSeq (fill "label_u32" (int 0) (ECall "punycode_decode *output_length" ["dst"; "label_u32"] [int 4; EBin Sub (EIdx "dstlen" (int 0)) (int 4); EVar "label32_len"])
               (ECall "punycode_decode output" ["dst"; "label_u32"] [int 4; EBin Sub (EIdx "dstlen" (int 0)) (int 4); EVar "label32_len"; EVar "k"]))
            (SSeq (SExp (EAsg "label32_len" (ECall "punycode_decode *output_length" ["dst"; "label_u32"] [int 4; EBin Sub (EIdx "dstlen" (int 0)) (int 4); EVar "label32_len"]))) st)))) ST o).
        { intros st o X. unfold ST.
          eapply (runs_seq rt cl lf_mono). { eapply (runs_exp rt cl). exists O. c0. rewrite U4, lib_dec, (rc_part _ _ _ _ _ PE), (DL2 lu eq_refl). cbn. change (rt "punycode_decode") with I32. c0. reflexivity. }
          eapply (runs_seq rt cl lf_mono). { eapply (runs_if rt cl lf_mono); [exists O; c0; reflexivity|]. apply runs_skip. }
          eapply (runs_seq rt cl lf_mono).
          { refine (fill_runs rt cl lf_mono (fun kk arr => ls sl (Some (zlen p)) al (Some 0) 0 tm so 63 kk D dl arr sa (map Some p ++ rest)) "label_u32" (int 0) _ _ 0 l (zlen lu) _ _ _ _ [] lu (Some k) eq_refl _ eq_refl); [| | | |lia].
            - intros kk arr _. eapply (runs_exp rt cl). exists O. c0. reflexivity.
            - intros kk arr B E. exists O. c0. rewrite U4, lib_dec_len, (len_part _ _ _ _ enc l PE) by exact (DL2 arr E). reflexivity.
            - intros kk y arr arr' B C IY E S. exists O. split; [|discriminate]. c0. rewrite ?(u64_id kk) by (unfold two64; lia). rewrite U4, lib_dec_elt, (elt_part _ _ _ _ _ enc l PE) by exact (DL2 arr E). rewrite C. cbn.
              change (rt "punycode_decode output") with U32. cbn. cbn in S. rewrite S. reflexivity.
            - intros kk arr B. eapply (runs_exp rt cl). exists O. c0. rewrite (u64_id (kk + 1)) by (unfold two64; lia). reflexivity. }
          cbn [app]. fold LU'.
          eapply (runs_seq rt cl lf_mono). { eapply (runs_exp rt cl). exists O. c0. rewrite U4, lib_dec_len, (len_part _ _ _ _ enc l PE) by exact (DL2 LU' ZL). cbn. change (rt "punycode_decode *output_length") with U64. c0. reflexivity. }
          exact X. }
        assert (C : evals rt cl (EOr (EBin Ne (EVar "plen") (EVar "label32_len")) (ECall "u32_cmp" ["p"; "label_u32"] [EVar "label32_len"])) (ls sl (Some (zlen p)) al (Some 0) 0 tm so (zlen l) (Some (zlen l)) D dl LU' sa (map Some p ++ rest))
          (I32, if list_eqb p l then 0 else 1) (ls sl (Some (zlen p)) al (Some 0) 0 tm so (zlen l) (Some (zlen l)) D dl LU' sa (map Some p ++ rest))).
        { exists O. c0. destruct (zlen p =? zlen l) eqn:E; cbn.
          - rewrite lib_cmp. apply Z.eqb_eq in E. unfold on_part. assert (P1 : part (map Some p ++ rest) 0 (zlen l) = Val p) by (rewrite <- E; apply part_front). rewrite P1. cbn [rbind]. unfold LU'. rewrite part_front. cbn. destruct (list_eqb p l); reflexivity.
          - destruct (list_eqb p l) eqn:X; [|reflexivity]. apply list_eqb_iff in X. subst l. rewrite Z.eqb_refl in E. congruence. }
        destruct (list_eqb p l) eqn:PL.
        + exists (ls sl (Some (zlen p)) al (Some 0) 0 tm so (zlen l) (Some (zlen l)) D dl LU' sa (map Some p ++ rest)), LU'. split; [|reflexivity].
          eapply (runs_seq rt cl lf_mono); [|eapply (runs_ret rt cl); exists O; reflexivity]. eapply (runs_if rt cl lf_mono); [exact CK|]. cbn [snd Z.eqb]. eapply (runs_if rt cl lf_mono); [exact FN|]. cbn [snd Z.eqb].
          apply PR. eapply (runs_if rt cl lf_mono); [exact C|]. apply runs_skip.
        + apply (GO _ LU'). eexists. split; [apply PR; eapply (runs_if rt cl lf_mono); [exact C|]; eapply (runs_ret rt cl); exists O; reflexivity|reflexivity].
      - apply (GO _ lu). eexists. split.
        + unfold body, ST. pose proof (nz_decode _ _ _ _ Q) as E9. unfold IDN2_OK in E9.
          eapply (runs_seq rt cl lf_mono). { eapply (runs_exp rt cl). exists O. c0. rewrite U4, lib_dec, (rc_part _ _ _ _ _ PE). unfold dec_call. rewrite LU, Q. cbn. change (rt "punycode_decode") with I32. c0. reflexivity. }
          eapply (runs_seq_stop rt cl); [|exact Logic.I]. eapply (runs_if rt cl lf_mono); [exists O; c0; reflexivity|]. cbn [snd]. replace (e =? 0) with false by lia. eapply (runs_ret rt cl). exists O. reflexivity.
        + reflexivity.
    Qed.
  End Check.

  (** After the Unicode form of the label is known. *)
  Section Tail.
    Variables (al ck so : Z) (x : list Z) (lu sa : list (option Z)) (tm rc plen : option Z).
    Hypothesis AL : al = 0 \/ al = 1.
    Hypothesis PA : part (if al =? 0 then map Some s else sa) 0 (zlen x) = Val x.
    Hypothesis LX : 4 * zlen x < two64.
    Notation b := (has f IDN2_NFC_INPUT).
    Lemma nfc_same : nfc_call U (Z.land f IDN2_NFC_INPUT) x = u8_to_u32_nfc U x b. Proof. reflexivity. Qed.
    Notation A := (if al =? 0 then map Some s else sa).
    Notation two := [EVar "srclen"; EBin BAnd (EVar "flags") (int IDN2_NFC_INPUT)].
    Lemma on2 : forall name T v pl r tm' l32 k dst dl lu' pp, rt name = T -> common T T = T -> fits T T = true -> (forall a b, cl 0 name [(a, zlen x); (b, Z.land f IDN2_NFC_INPUT)] [(U8, A)] = Val v) ->
      eval rt cl 0 (on_src name two) (ls (zlen x) pl al r ck tm' so l32 k dst dl lu' sa pp) = Val ((T, v), ls (zlen x) pl al r ck tm' so l32 k dst dl lu' sa pp).
    Proof.
      intros name T v pl r tm' l32 k dst dl lu' pp RT CM FT C. unfold on_src. destruct AL as [E|E]; rewrite E in C |- *; cbn [Z.eqb] in C; c0; replace ((f <? 0) || false) with false by lia; cbn; rewrite C; cbn; rewrite RT, CM; unfold cast; cbn [fst snd]; rewrite FT; reflexivity.
    Qed.
    Lemma on3 : forall name T v pl r tm' l32 k dst dl lu' pp, rt name = T -> common T T = T -> fits T T = true -> (forall a b c, cl 0 name [(a, zlen x); (b, Z.land f IDN2_NFC_INPUT); (c, k)] [(U8, A)] = Val v) ->
      eval rt cl 0 (on_src name (two ++ [EVar "k"])) (ls (zlen x) pl al r ck tm' so l32 (Some k) dst dl lu' sa pp) = Val ((T, v), ls (zlen x) pl al r ck tm' so l32 (Some k) dst dl lu' sa pp).
    Proof.
      intros name T v pl r tm' l32 k dst dl lu' pp RT CM FT C. unfold on_src. destruct AL as [E|E]; rewrite E in C |- *; cbn [Z.eqb] in C; c0; replace ((f <? 0) || false) with false by lia; cbn; rewrite C; cbn; rewrite RT, CM; unfold cast; cbn [fst snd]; rewrite FT; reflexivity.
    Qed.
    (** What is in p. *)
    Hypothesis XL : forall l, u8_to_u32 x = Some l -> Forall scalar l /\ ~ In 0 l /\ ~ In 46 l.
    Lemma p_ok : forall p, u8_to_u32_nfc U x b = Ok p -> Forall scalar p /\ ~ In 0 p /\ ~ In 46 p /\ zlen p <= 4 * zlen x.
    Proof.
      intros p Q. pose proof (u8_to_u32_nfc_len U x b p FF Q) as LP. destruct (u8_nfc_ok U x b p Q) as (l & E & NM). destruct (XL l E) as (S1 & S2 & S3).
      repeat split; [exact (norm_scalar _ _ _ _ K S1 NM)|exact (norm_sep _ _ _ _ 0 K (or_introl eq_refl) S2 NM)|exact (norm_sep _ _ _ _ 46 K (or_intror eq_refl) S3 NM)|exact LP].
    Qed.
    Definition keeps (st : cst) : Prop := exists dst dl lu sa pp, arrs st = lmem dst dl lu sa pp.
    Lemma ls_keeps : forall sl pl a r c t o l k dst dl lu sa pp, keeps (ls sl pl a r c t o l k dst dl lu sa pp).
    Proof. intros. unfold keeps. do 5 eexists. reflexivity. Qed.
    Lemma tests_eval : forall plen r tm' l32 k dst dl lu' pp p rest, pp = map Some p ++ rest -> plen = zlen p -> match label_test U (label_tests f) p with
      | Ok _ => evals rt cl (ECall "_idn2_label_test" ["p"] [EBin BOr (EBin BOr (EBin BOr (EBin BOr (EBin BOr (EBin BOr (EBin BOr (EBin BOr (EBin BOr (int TEST_NFC) (int TEST_2HYPHEN)) (int TEST_LEADING_COMBINING)) (int TEST_DISALLOWED)) (int TEST_CONTEXTJ_RULE)) (int TEST_CONTEXTO_WITH_RULE)) (int TEST_UNASSIGNED)) (int TEST_BIDI))
         (ECond (EBin BAnd (EVar "flags") (int IDN2_NONTRANSITIONAL)) (int TEST_NONTRANSITIONAL) (int 0))) (ECond (EBin BAnd (EVar "flags") (int IDN2_USE_STD3_ASCII_RULES)) (int 0) (int TEST_ALLOW_STD3_DISALLOWED)); int 0; EVar "plen"])
           (ls (zlen x) (Some plen) al r ck tm' so l32 k dst dl lu' sa pp) (I32, 0) (ls (zlen x) (Some plen) al r ck tm' so l32 k dst dl lu' sa pp)
      | Fail e => evals rt cl (ECall "_idn2_label_test" ["p"] [EBin BOr (EBin BOr (EBin BOr (EBin BOr (EBin BOr (EBin BOr (EBin BOr (EBin BOr (EBin BOr (int TEST_NFC) (int TEST_2HYPHEN)) (int TEST_LEADING_COMBINING)) (int TEST_DISALLOWED)) (int TEST_CONTEXTJ_RULE)) (int TEST_CONTEXTO_WITH_RULE)) (int TEST_UNASSIGNED)) (int TEST_BIDI))
         (ECond (EBin BAnd (EVar "flags") (int IDN2_NONTRANSITIONAL)) (int TEST_NONTRANSITIONAL) (int 0))) (ECond (EBin BAnd (EVar "flags") (int IDN2_USE_STD3_ASCII_RULES)) (int 0) (int TEST_ALLOW_STD3_DISALLOWED)); int 0; EVar "plen"])
           (ls (zlen x) (Some plen) al r ck tm' so l32 k dst dl lu' sa pp) (I32, e) (ls (zlen x) (Some plen) al r ck tm' so l32 k dst dl lu' sa pp)
      | _ => True end.
    Proof.
      intros pl r tm' l32 k dst dl lu' pp p rest -> ->. pose proof (part_front p rest) as PP.
      assert (C : forall a b c w, w = label_tests f -> cl 0 "_idn2_label_test" [(a, w); (b, 0); (c, zlen p)] [(U32, map Some p ++ rest)] = code (label_test U (label_tests f) p)).
      { intros a b' c w ->. rewrite lib_test. unfold on_part. rewrite PP. reflexivity. }
      unfold label_tests in *. unfold has in *.
      destruct (label_test U _ p) as [[]|e| |]; [| |exact Logic.I..]; exists O; c0; nolor; replace ((f <? 0) || false) with false by lia; cbn;
        destruct (Z.land f IDN2_NONTRANSITIONAL =? 0) eqn:E1; cbn; nolor; replace ((f <? 0) || false) with false by lia; cbn; destruct (Z.land f IDN2_USE_STD3_ASCII_RULES =? 0) eqn:E2; cbn; nolor; (erewrite C by reflexivity); reflexivity.
    Qed.
    Lemma tail_runs : forall l32 k a0 a1 a2 a3 r pp, zlen r = 59 -> 4 * zlen x <= zlen pp -> ck = 1 /\ so = zlen s \/ ck = 0 /\ zlen lu = 63 /\ l32 = 63 ->
      match label_tail U x (if ck =? 1 then Some s else None) 63 f with
      | Ok t => exists st rest lu' pp', R lb_tail (ls (zlen x) plen al rc ck tm so l32 k (a0 :: a1 :: a2 :: a3 :: r) 63 lu sa pp) (Ret (I32, 0) st) /\ arrs st = lmem (map Some t ++ rest) (zlen t) lu' sa pp'
      | Fail e => exists st, R lb_tail (ls (zlen x) plen al rc ck tm so l32 k (a0 :: a1 :: a2 :: a3 :: r) 63 lu sa pp) (Ret (I32, e) st) /\ keeps st
      | _ => True
      end.
    Proof.
      intros l32 k a0 a1 a2 a3 r pp R59 PPL CK. unfold lb_tail. fold lb_put. unfold label_tail. set (d4 := a0 :: a1 :: a2 :: a3 :: r).
      pose proof (nz_u8_nfc U x b) as NZ0. pose proof p_ok as PO. pose proof nfc_same as NS. destruct (u8_to_u32_nfc U x b) as [p|e| |]; cbn [bind]; [| |exact Logic.I..].
      2:{ exists (ls (zlen x) plen al (Some e) ck tm so l32 k d4 63 lu sa pp). split; [|apply ls_keeps].
        eapply (runs_seq rt cl lf_mono). { eapply (runs_exp rt cl). exists O. cbn [eval]. rewrite (on2 "_idn2_u8_to_u32_nfc" I32 e); [cc; reflexivity|reflexivity..|]. intros a b'. rewrite lib_nfc, (rc_part _ _ _ _ _ PA), NS. reflexivity. }
        eapply (runs_seq_stop rt cl); [|exact Logic.I]. eapply (runs_if rt cl lf_mono); [exists O; cc; reflexivity|]. cbn [snd]. pose proof (NZ0 e eq_refl) as E0. unfold IDN2_OK in *. replace (e =? 0) with false by lia. cbn.
        eapply (runs_ret rt cl). exists O. cc. reflexivity. }
      destruct (PO p eq_refl) as (SP & P0 & P46 & LP). clear PO. pose proof (z0 _ p) as ZP. pose proof (z0 _ x) as ZX. set (rest := skipn (length p) pp).
      assert (LN : forall a b', cl 0 "_idn2_u8_to_u32_nfc *outlen" [(a, zlen x); (b', Z.land f IDN2_NFC_INPUT)] [(U8, A)] = Val (zlen p)) by (intros a b'; rewrite lib_nfc_len; apply (len_part _ _ _ _ x p PA NS)).
      assert (PR : forall st o, R st (ls (zlen x) (Some (zlen p)) al (Some 0) ck tm so l32 (Some (zlen p)) d4 63 lu sa (map Some p ++ rest)) o ->
        R (SSeq (SExp (EAsg "rc" (on_src "_idn2_u8_to_u32_nfc" two))) (SSeq (SIf (EBin Ne (EVar "rc") (int IDN2_OK)) (SReturn (EVar "rc")) SSkip)
          (SSeq (fill "p" (int 0) (on_src "_idn2_u8_to_u32_nfc *outlen" two) (on_src "_idn2_u8_to_u32_nfc *out" (two ++ [EVar "k"]))) (SSeq (SExp (EAsg "plen" (on_src "_idn2_u8_to_u32_nfc *outlen" two))) st))))
          (ls (zlen x) plen al rc ck tm so l32 k d4 63 lu sa pp) o).
      { intros st o X.
        eapply (runs_seq rt cl lf_mono). { eapply (runs_exp rt cl). exists O. cbn [eval]. rewrite (on2 "_idn2_u8_to_u32_nfc" I32 0); [cc; reflexivity|reflexivity..|]. intros a b'. rewrite lib_nfc, (rc_part _ _ _ _ _ PA), NS. reflexivity. }
        eapply (runs_seq rt cl lf_mono). { eapply (runs_if rt cl lf_mono); [exists O; cc; reflexivity|]. apply runs_skip. }
        eapply (runs_seq rt cl lf_mono).
        { refine (fill_runs rt cl lf_mono (fun kk arr => ls (zlen x) plen al (Some 0) ck tm so l32 kk d4 63 lu sa arr) "p" (int 0) _ _ 0 p (zlen pp) _ _ _ _ [] pp k eq_refl _ eq_refl); [| | | |lia].
          - intros kk arr _. eapply (runs_exp rt cl). exists O. c0. reflexivity.
          - intros kk arr B E. exists O. pose proof (on2 "_idn2_u8_to_u32_nfc *outlen" U64 (zlen p) plen (Some 0) tm l32 (Some kk) d4 63 lu arr eq_refl eq_refl eq_refl LN) as X2. unfold two64 in LX.
            cbn [eval]. match goal with |- context [get_var "k" ?S] => change (get_var "k" S) with (Val (U64, kk)) end. cbn [rbind]. rewrite X2. c0. reflexivity.
          - intros kk y arr arr' B C IY E S. exists O. split; [|discriminate].
            pose proof (on3 "_idn2_u8_to_u32_nfc *out" U32 y plen (Some 0) tm l32 kk d4 63 lu arr eq_refl eq_refl eq_refl) as X3.
            assert (IX : eval rt cl 0 (EBin Add (int 0) (EVar "k")) (ls (zlen x) plen al (Some 0) ck tm so l32 (Some kk) d4 63 lu sa arr) = Val ((U64, kk), ls (zlen x) plen al (Some 0) ck tm so l32 (Some kk) d4 63 lu sa arr)) by (c0; rewrite ?(u64_id kk) by (unfold two64 in *; lia); reflexivity).
            cbn [exec]. rewrite IX. cbn [obind snd fst]. rewrite X3. 2:{ intros a b' c. rewrite lib_nfc_elt, (elt_part _ _ _ _ _ x p PA NS). exact C. }
            cbn in S |- *. rewrite S. reflexivity.
          - intros kk arr B. eapply (runs_exp rt cl). exists O. c0. rewrite (u64_id (kk + 1)) by (unfold two64 in *; lia). reflexivity. }
        cbn [app]. fold rest.
        eapply (runs_seq rt cl lf_mono). { eapply (runs_exp rt cl). exists O. cbn [eval]. rewrite (on2 "_idn2_u8_to_u32_nfc *outlen" U64 (zlen p)); [cc; reflexivity|reflexivity..|exact LN]. }
        exact X. }
      (* after the tests *)
      assert (GO : match (let* enc := puny_encode p (63 - 4) (63 - 4) in
          match (if ck =? 1 then Some s else None) with
          | Some org => if casecmp_eq org (ace_prefix ++ enc) then Ok (ace_prefix ++ enc) else Fail IDN2_ALABEL_ROUNDTRIP_FAILED
          | None => if negb (has f IDN2_NO_ALABEL_ROUNDTRIP) then
              match puny_decode enc LABEL_MAX LABEL_MAX with
              | Ok l32 => if list_eqb p l32 then Ok (ace_prefix ++ enc) else Fail IDN2_ALABEL_ROUNDTRIP_FAILED
              | Fail _ => Fail IDN2_ALABEL_ROUNDTRIP_FAILED
              | Undef => Undef
              | NoFuel => NoFuel
              end else Ok (ace_prefix ++ enc)
          end) with
        | Ok t => exists st rest' lu' pp', R lb_put (ls (zlen x) (Some (zlen p)) al (Some 0) ck tm so l32 (Some (zlen p)) d4 63 lu sa (map Some p ++ rest)) (Ret (I32, 0) st) /\ arrs st = lmem (map Some t ++ rest') (zlen t) lu' sa pp'
        | Fail e => exists st, R lb_put (ls (zlen x) (Some (zlen p)) al (Some 0) ck tm so l32 (Some (zlen p)) d4 63 lu sa (map Some p ++ rest)) (Ret (I32, e) st) /\ keeps st
        | _ => True
        end).
      { change (63 - 4) with 59. assert (PB : zlen p < two64) by (clear - LP LX; unfold two64 in *; lia). pose proof (put_runs (zlen x) al ck so l32 (Some 0) tm (Some (zlen p)) lu sa p rest a0 a1 a2 a3 r R59) as PT. fold d4 in PT.
        pose proof (nz_encode p 59 59) as NZ1. pose proof (enc_shape p) as ES. destruct (puny_encode p 59 59) as [enc|e| |]; cbn [bind]; [| |exact Logic.I..].
        - destruct PT as (k' & rest' & PT). destruct (ES enc SP P0 P46 eq_refl) as (LE & EB & _). assert (EB' : Forall (fun b => 0 < b < 128) enc) by (eapply Forall_impl; [|exact EB]; cbn; intros; lia).
          assert (DL : zlen (ace_prefix ++ enc) = 4 + zlen enc) by (rewrite zlen_app; reflexivity). unfold LABEL_MAX.
          destruct CK as [(CK & SO)|(CK & LU & L32)].
          + rewrite CK in *. cbn [Z.eqb Pos.eqb].
            pose proof (check_ace (zlen x) al (Some (zlen enc)) k' lu sa rest rest' p enc EB' so l32 (4 + zlen enc) SO eq_refl) as CA.
            destruct (casecmp_eq s (ace_prefix ++ enc)).
            * eexists. exists rest', lu, (map Some p ++ rest). split; [apply PT; exact CA|]. rewrite DL. reflexivity.
            * eexists. split; [apply PT; exact CA|]. apply ls_keeps.
          + rewrite CK, L32 in *. cbn [Z.eqb].
            pose proof (check_uni (zlen x) al (Some (zlen enc)) k' lu sa rest rest' p enc LE so (4 + zlen enc) LU eq_refl) as CU. unfold checked in CU. cbn [Z.eqb] in CU.
            match type of CU with match ?q with _ => _ end => match goal with |- match ?q' with _ => _ end => change q' with q; destruct q as [t|e| |] eqn:Q end end; [| |exact Logic.I..].
            * assert (T : t = ace_prefix ++ enc). { destruct (negb _); [|congruence]. destruct (puny_decode enc 63 63) as [l|?| |]; try discriminate Q. destruct (list_eqb p l); [congruence|discriminate Q]. }
              destruct CU as (st & lu' & C1 & C2). exists st, rest', lu', (map Some p ++ rest). split; [apply PT; exact C1|]. rewrite C2, T, DL. reflexivity.
            * destruct CU as (st & lu' & C1 & C2). exists st. split; [apply PT; exact C1|]. unfold keeps. do 5 eexists. exact C2.
        - destruct (PT (NZ1 e eq_refl)) as (dst & PT'). eexists. split; [exact PT'|]. apply ls_keeps. }
      change (63 <? 4) with false. cbv iota. cbv zeta.
      match goal with |- context [SSeq (SIf (ENot (EBin BAnd (EVar "flags") (int IDN2_TRANSITIONAL))) ?x SSkip) lb_put] => set (body := x) end.
      set (ST := ls (zlen x) (Some (zlen p)) al (Some 0) ck tm so l32 (Some (zlen p)) d4 63 lu sa (map Some p ++ rest)) in *.
      pose proof (lf_not ST IDN2_TRANSITIONAL eq_refl ltac:(discriminate)) as FT.
      assert (NEXT : R (SIf (ENot (EBin BAnd (EVar "flags") (int IDN2_TRANSITIONAL))) body SSkip) ST (Norm ST) -> forall o, R lb_put ST o ->
        R (SSeq (SIf (ENot (EBin BAnd (EVar "flags") (int IDN2_TRANSITIONAL))) body SSkip) lb_put) ST o) by (intros X o Y; eapply (runs_seq rt cl lf_mono); [exact X|exact Y]).
      assert (DONE : R (SIf (ENot (EBin BAnd (EVar "flags") (int IDN2_TRANSITIONAL))) body SSkip) ST (Norm ST) -> Idna.when (negb (has f IDN2_TRANSITIONAL)) (label_test U (label_tests f) p) = Ok tt -> forall (y : out (list Z)),
        match y with
        | Ok t => exists st rest' lu' pp', R lb_put ST (Ret (I32, 0) st) /\ arrs st = lmem (map Some t ++ rest') (zlen t) lu' sa pp'
        | Fail e => exists st, R lb_put ST (Ret (I32, e) st) /\ keeps st
        | _ => True
        end -> match (let* _ := Idna.when (negb (has f IDN2_TRANSITIONAL)) (label_test U (label_tests f) p) in y) with
        | Ok t => exists st rest' lu' pp', R (SSeq (SExp (EAsg "rc" (on_src "_idn2_u8_to_u32_nfc" two))) (SSeq (SIf (EBin Ne (EVar "rc") (int IDN2_OK)) (SReturn (EVar "rc")) SSkip)
          (SSeq (fill "p" (int 0) (on_src "_idn2_u8_to_u32_nfc *outlen" two) (on_src "_idn2_u8_to_u32_nfc *out" (two ++ [EVar "k"]))) (SSeq (SExp (EAsg "plen" (on_src "_idn2_u8_to_u32_nfc *outlen" two)))
             (SSeq (SIf (ENot (EBin BAnd (EVar "flags") (int IDN2_TRANSITIONAL))) body SSkip) lb_put))))) (ls (zlen x) plen al rc ck tm so l32 k d4 63 lu sa pp) (Ret (I32, 0) st) /\ arrs st = lmem (map Some t ++ rest') (zlen t) lu' sa pp'
        | Fail e => exists st, R (SSeq (SExp (EAsg "rc" (on_src "_idn2_u8_to_u32_nfc" two))) (SSeq (SIf (EBin Ne (EVar "rc") (int IDN2_OK)) (SReturn (EVar "rc")) SSkip)
          (SSeq (fill "p" (int 0) (on_src "_idn2_u8_to_u32_nfc *outlen" two) (on_src "_idn2_u8_to_u32_nfc *out" (two ++ [EVar "k"]))) (SSeq (SExp (EAsg "plen" (on_src "_idn2_u8_to_u32_nfc *outlen" two)))
             (SSeq (SIf (ENot (EBin BAnd (EVar "flags") (int IDN2_TRANSITIONAL))) body SSkip) lb_put))))) (ls (zlen x) plen al rc ck tm so l32 k d4 63 lu sa pp) (Ret (I32, e) st) /\ keeps st
        | _ => True
        end).
      { intros X W y Y. rewrite W. cbn [bind]. destruct y as [t|e| |]; [| |exact Logic.I..].
        - destruct Y as (st & rest' & lu' & pp' & Y1 & Y2). exists st, rest', lu', pp'. split; [|exact Y2]. apply PR. apply NEXT; assumption.
        - destruct Y as (st & Y1 & Y2). exists st. split; [|exact Y2]. apply PR. apply NEXT; assumption. }
      pose proof (tests_eval (zlen p) (Some 0) tm l32 (Some (zlen p)) d4 63 lu (map Some p ++ rest) p rest eq_refl eq_refl) as TE. fold ST in TE. pose proof (nz_label_test U (label_tests f) p) as NZ2.
      destruct (has f IDN2_TRANSITIONAL); cbn [negb] in *.
      { apply DONE; [|reflexivity|exact GO]. eapply (runs_if rt cl lf_mono); [exact FT|]. apply runs_skip. }
      destruct (label_test U (label_tests f) p) as [[]|e| |]; [| |exact Logic.I..].
      - apply DONE; [|reflexivity|exact GO]. eapply (runs_if rt cl lf_mono); [exact FT|]. cbn [snd Z.eqb]. unfold body.
        eapply (runs_seq rt cl lf_mono). { eapply (runs_exp rt cl). destruct TE as (n & TE). exists n. cbn [eval] in *. rewrite TE. cc. reflexivity. }
        eapply (runs_if rt cl lf_mono); [exists O; cc; reflexivity|]. apply runs_skip.
      - cbn [bind Idna.when]. eexists. split.
        { apply PR. eapply (runs_seq_stop rt cl); [|exact Logic.I]. eapply (runs_if rt cl lf_mono); [exact FT|]. cbn [snd Z.eqb]. unfold body.
          eapply (runs_seq rt cl lf_mono). { eapply (runs_exp rt cl). destruct TE as (n & TE). exists n. cbn [eval] in *. rewrite TE. cc. reflexivity. }
          eapply (runs_if rt cl lf_mono); [exists O; cc; reflexivity|]. pose proof (NZ2 e eq_refl) as E0. unfold IDN2_OK in *. cbn [snd]. replace (e =? 0) with false by lia. cbn. eapply (runs_ret rt cl). exists O. cc. reflexivity. }
        apply ls_keeps.
    Qed.
  End Tail.

  (** From the label to its Unicode form. *)
  Definition lb_cond : expr := Eval cbn -[fill on_src int] in match lb_head with SIf _ (SIf c _ _) _ => c | _ => int 0 end.
  Definition lb_ace : stmt := Eval cbn -[fill on_src int] in match lb_head with SIf _ (SIf _ a _) _ => a | s => s end.
  Definition lb_copy : stmt := Eval cbn -[fill on_src int] in match lb_head with SIf _ (SIf _ _ a) _ => a | s => s end.
  Lemma head_form : lb_head = SIf (ECall "_idn2_ascii_p" ["src"] [EVar "srclen"]) (SIf lb_cond lb_ace lb_copy) SSkip. Proof. reflexivity. Qed.
  Lemma ace_four : (4 <=? zlen s) && list_eqb (firstn 4 s) ace_prefix = has_ace_prefix s.
  Proof.
    clear. destruct s as [|a [|b [|c [|d r] ] ] ]; try reflexivity. rewrite !zlen_cons. pose proof (z0 _ r). replace (4 <=? _) with true by lia.
    cbn [firstn andb has_ace_prefix]. unfold ace_prefix. cbn [list_eqb]. rewrite andb_true_r, !andb_assoc. reflexivity.
  Qed.
  Lemma ace_form : has_ace_prefix s = true -> s = ace_prefix ++ skipn 4 s.
  Proof. clear. destruct s as [|a [|b [|c [|d r] ] ] ]; try discriminate. cbn [has_ace_prefix]. rewrite !andb_true_iff, !Z.eqb_eq. intros (((-> & ->) & ->) & ->). reflexivity. Qed.
  Section Head.
    Variables (dst lu sa pp : list (option Z)) (plen rc tm k : option Z).
    Notation H0 := (ls (zlen s) plen 0 rc 0 tm 0 63 k dst 63 lu sa pp).
    Lemma cond_eval : evals rt cl lb_cond H0 (I32, if negb (has f IDN2_NO_ALABEL_ROUNDTRIP) && has_ace_prefix s then 1 else 0) H0.
    Proof.
      pose proof ace_four as A4. unfold lb_cond, has. exists O. c0. replace ((f <? 0) || false) with false by lia. cbn. destruct (Z.land f IDN2_NO_ALABEL_ROUNDTRIP =? 0); cbn; [|reflexivity]. change (u64 4) with 4.
      destruct (4 <=? zlen s) eqn:E; cbn.
      - rewrite lib_memcmp. unfold on_part. assert (PT : part (map Some s) 0 4 = Val (firstn 4 s)).
        { pose proof (part_front (firstn 4 s) (map Some (skipn 4 s))) as Q. rewrite <- map_app, firstn_skipn in Q. replace (zlen (firstn 4 s)) with 4 in Q; [exact Q|]. unfold zlen in *. rewrite firstn_length. lia. }
        rewrite PT. cbn [rbind]. cbn [andb] in A4. rewrite A4. destruct (has_ace_prefix s); reflexivity.
      - cbn [andb] in A4. rewrite <- A4. reflexivity.
    Qed.
    Lemma ascii_eval : evals rt cl (ECall "_idn2_ascii_p" ["src"] [EVar "srclen"]) H0 (U8, if ascii_p s then 1 else 0) H0.
    Proof. exists O. c0. rewrite lib_ascii. unfold on_part. rewrite part_whole. reflexivity. Qed.
    Hypothesis ZD : zlen dst = 63.
    Hypothesis ZL : zlen lu = 63.
    Hypothesis ZS : 252 <= zlen sa.
    Lemma copy_runs : match (if LABEL_MAX <? zlen s then Fail IDN2_TOO_BIG_LABEL else if 63 <? zlen s then Fail IDN2_TOO_BIG_DOMAIN else Ok s) with
      | Ok t => exists st rest, R lb_copy H0 (Ret (I32, 0) st) /\ arrs st = lmem (map Some t ++ rest) (zlen t) lu sa pp
      | Fail e => exists st, R lb_copy H0 (Ret (I32, e) st) /\ keeps st
      | _ => True end.
    Proof.
      unfold LABEL_MAX, lb_copy. destruct (63 <? zlen s) eqn:E.
      { exists H0. split; [|apply ls_keeps]. eapply (runs_seq_stop rt cl); [|exact Logic.I]. eapply (runs_if rt cl lf_mono); [exists O; c0; rewrite E; reflexivity|]. eapply (runs_ret rt cl). exists O. c0. reflexivity. }
      pose proof s_ok as SO. set (DD := map Some s ++ skipn (length s) dst).
      exists (ls (zlen s) plen 0 rc 0 tm 0 63 (Some (zlen s)) DD (zlen s) lu sa pp), (skipn (length s) dst). split; [|reflexivity].
      eapply (runs_seq rt cl lf_mono). { eapply (runs_if rt cl lf_mono); [exists O; c0; rewrite E; reflexivity|]. apply runs_skip. }
      eapply (runs_seq rt cl lf_mono). { eapply (runs_if rt cl lf_mono); [exists O; c0; rewrite E; reflexivity|]. apply runs_skip. }
      eapply (runs_seq rt cl lf_mono).
      { refine (fill_runs rt cl lf_mono (fun kk arr => ls (zlen s) plen 0 rc 0 tm 0 63 kk arr 63 lu sa pp) "dst" (int 0) _ _ 0 s (zlen dst) _ _ _ _ [] dst k eq_refl _ eq_refl); [| | | |lia].
        - intros kk arr _. eapply (runs_exp rt cl). exists O. c0. reflexivity.
        - intros kk arr B Q. exists O. c0. reflexivity.
        - intros kk y arr arr' B C IY Q X. exists O. split; [|discriminate]. c0. rewrite ?(u64_id kk) by (unfold two64 in *; lia). rewrite C. c0. cbn in X. rewrite X. reflexivity.
        - intros kk arr B. eapply (runs_exp rt cl). exists O. c0. rewrite (u64_id (kk + 1)) by (unfold two64 in *; lia). reflexivity. }
      cbn [app]. fold DD.
      eapply (runs_seq rt cl lf_mono). { exists O. split; [|discriminate]. c0. reflexivity. }
      eapply (runs_ret rt cl). exists O. c0. reflexivity.
    Qed.
    Lemma ace_runs : has_ace_prefix s = true -> match puny_decode (skipn 4 s) 63 63 with
      | Fail e => exists st, R lb_ace H0 (Ret (I32, e) st) /\ keeps st
      | Ok l => match u32_to_u8 l with
        | None => exists st, R lb_ace H0 (Ret (I32, IDN2_ENCODING_ERROR) st) /\ keeps st
        | Some x => exists l32 k' lu' rest, R lb_ace H0 (Norm (ls (zlen x) plen 1 (Some 0) 1 tm (zlen s) l32 k' dst 63 lu' (map Some x ++ rest) pp))
        end
      | _ => True end.
    Proof.
      intros AC. set (q := skipn 4 s). assert (SQ : s = ace_prefix ++ q) by (apply ace_form; exact AC). pose proof s_ok as SO. pose proof (z0 _ q) as Q0.
      assert (ZQ : zlen s = 4 + zlen q) by (rewrite SQ, zlen_app; reflexivity).
      assert (U4 : u64 (zlen s - 4) = zlen q) by (rewrite u64_id by (unfold two64 in *; lia); lia).
      assert (PQ : part (map Some s) 4 (zlen q) = Val q) by (rewrite SQ; exact (part_back ace_prefix q)).
      assert (DC : forall arr, zlen arr = 63 -> dec_call 63 arr q = puny_decode q 63 63) by (intros arr E; unfold dec_call; rewrite E; reflexivity).
      unfold lb_ace. pose proof (nz_decode q 63 63) as NZ0. pose proof (decoded q) as DEC. destruct (puny_decode q 63 63) as [l|e| |] eqn:PD; [| |exact Logic.I..].
      2:{ eexists. split.
        { eapply (runs_seq rt cl lf_mono). { eapply (runs_exp rt cl). exists O. c0. rewrite U4, lib_dec, (rc_part _ _ _ _ _ PQ), (DC lu ZL). cbn. change (rt "punycode_decode") with I32. c0. reflexivity. }
          eapply (runs_seq_stop rt cl); [|exact Logic.I]. eapply (runs_if rt cl lf_mono); [exists O; c0; reflexivity|]. cbn [snd]. pose proof (NZ0 e eq_refl) as E0. unfold IDN2_OK in E0. replace (e =? 0) with false by lia. eapply (runs_ret rt cl). exists O. c0. reflexivity. }
        apply ls_keeps. }
      destruct (DEC l eq_refl ltac:(unfold two64 in *; lia)) as (L63 & _). pose proof (z0 _ l) as L0. set (LU := map Some l ++ skipn (length l) lu).
      assert (ZU : zlen LU = 63). { unfold LU. rewrite zlen_app, zlen_map. unfold zlen in *. rewrite skipn_length. lia. }
      assert (PL : part LU 0 (zlen l) = Val l) by apply part_front.
      assert (PR : forall st o, R st (ls 63 plen 0 (Some 0) 1 tm (zlen s) (zlen l) (Some (zlen l)) dst 63 LU sa pp) o ->
        R (SSeq (SExp (EAsg "rc" (ECall "punycode_decode" ["src"; "label_u32"] [int 4; EBin Sub (EVar "srclen") (int 4); EVar "label32_len"])))
          (SSeq (SIf (EVar "rc") (SReturn (EVar "rc")) SSkip)
          (SSeq (fill "label_u32" (int 0) (ECall "punycode_decode *output_length" ["src"; "label_u32"] [int 4; EBin Sub (EVar "srclen") (int 4); EVar "label32_len"])
               (ECall "punycode_decode output" ["src"; "label_u32"] [int 4; EBin Sub (EVar "srclen") (int 4); EVar "label32_len"; EVar "k"]))
          (SSeq (SExp (EAsg "label32_len" (ECall "punycode_decode *output_length" ["src"; "label_u32"] [int 4; EBin Sub (EVar "srclen") (int 4); EVar "label32_len"])))
          (SSeq (SExp (EAsg "check_roundtrip" (int 1))) (SSeq (SExp (EAsg "srclen_org" (EVar "srclen"))) (SSeq (SExp (EAsg "srclen" (int 63))) st))))))) H0 o).
      { intros st o X.
        eapply (runs_seq rt cl lf_mono). { eapply (runs_exp rt cl). exists O. c0. rewrite U4, lib_dec, (rc_part _ _ _ _ _ PQ), (DC lu ZL). cbn. change (rt "punycode_decode") with I32. c0. reflexivity. }
        eapply (runs_seq rt cl lf_mono). { eapply (runs_if rt cl lf_mono); [exists O; c0; reflexivity|]. apply runs_skip. }
        eapply (runs_seq rt cl lf_mono).
        { refine (fill_runs rt cl lf_mono (fun kk arr => ls (zlen s) plen 0 (Some 0) 0 tm 0 63 kk dst 63 arr sa pp) "label_u32" (int 0) _ _ 0 l (zlen lu) _ _ _ _ [] lu k eq_refl _ eq_refl); [| | | |lia].
          - intros kk arr _. eapply (runs_exp rt cl). exists O. c0. reflexivity.
          - intros kk arr B E. exists O. c0. rewrite U4, lib_dec_len, (len_part _ _ _ _ q l PQ) by (apply DC; lia). reflexivity.
          - intros kk y arr arr' B C IY E X0. exists O. split; [|discriminate]. c0. rewrite ?(u64_id kk) by (unfold two64 in *; lia). rewrite U4, lib_dec_elt, (elt_part _ _ _ _ _ q l PQ) by (apply DC; lia). rewrite C. cbn.
            change (rt "punycode_decode output") with U32. cbn. cbn in X0. rewrite X0. reflexivity.
          - intros kk arr B. eapply (runs_exp rt cl). exists O. c0. rewrite (u64_id (kk + 1)) by (unfold two64 in *; lia). reflexivity. }
        cbn [app]. fold LU.
        eapply (runs_seq rt cl lf_mono). { eapply (runs_exp rt cl). exists O. c0. rewrite U4, lib_dec_len, (len_part _ _ _ _ q l PQ) by (apply DC; exact ZU). cbn. change (rt "punycode_decode *output_length") with U64. c0. reflexivity. }
        eapply (runs_seq rt cl lf_mono). { eapply (runs_exp rt cl). exists O. c0. reflexivity. }
        eapply (runs_seq rt cl lf_mono). { eapply (runs_exp rt cl). exists O. c0. reflexivity. }
        eapply (runs_seq rt cl lf_mono). { eapply (runs_exp rt cl). exists O. c0. reflexivity. }
        exact X. }
      assert (U8 : forall n a b, cl n "u32_to_u8" [(a, 0); (b, zlen l)] [(U32, LU)] = Val (match u32_to_u8 l with Some a => zlen a | None => -1 end)) by (intros n a b; rewrite lib_u8; unfold on_part; rewrite PL; reflexivity).
      pose proof (u32_to_u8_len l) as UL.
      assert (UE : forall n a b c x j, u32_to_u8 l = Some x -> cl n "u32_to_u8 result" [(a, 0); (b, zlen l); (c, j)] [(U32, LU)] = cell (map Some x) j) by (intros n a b c x j E; rewrite lib_u8_elt; unfold on_part; rewrite PL; cbn [rbind]; unfold ace_of; rewrite E; reflexivity).
      destruct (u32_to_u8 l) as [x|].
      2:{ eexists. split; [|apply ls_keeps]. apply PR. eapply (runs_seq_stop rt cl); [|exact Logic.I].
        eapply (runs_if rt cl lf_mono); [exists O; c0; rewrite U8; cbn; change (rt "u32_to_u8") with I64; c0; reflexivity|]. eapply (runs_ret rt cl). exists O. c0. reflexivity. }
      specialize (UL x eq_refl). pose proof (z0 _ x) as X0.
      exists (zlen l), (Some (zlen x)), LU, (skipn (length x) sa). apply PR.
      eapply (runs_seq rt cl lf_mono). { eapply (runs_if rt cl lf_mono); [exists O; c0; rewrite U8; cbn; change (rt "u32_to_u8") with I64; c0; reflexivity|]. cbn [snd]. replace (zlen x =? -1) with false by lia. cbn. apply runs_skip. }
      eapply (runs_seq rt cl lf_mono).
      { refine (fill_runs rt cl lf_mono (fun kk arr => ls 63 plen 0 (Some 0) 1 tm (zlen s) (zlen l) kk dst 63 LU arr pp) "src_allocated" (int 0) _ _ 0 x (zlen sa) _ _ _ _ [] sa (Some (zlen l)) eq_refl _ eq_refl); [| | | |lia].
        - intros kk arr _. eapply (runs_exp rt cl). exists O. c0. reflexivity.
        - intros kk arr B E. exists O. c0. rewrite U8. cbn. change (rt "u32_to_u8") with I64. cbn. rewrite ?u64_id by (unfold two64; lia). reflexivity.
        - intros kk y arr arr' B C IY E Y. exists O. split; [|discriminate]. c0. rewrite ?(u64_id kk) by (unfold two64 in *; lia). rewrite (UE _ _ _ _ x kk eq_refl), C. cbn.
          change (rt "u32_to_u8 result") with CLang.U8. cbn. cbn in Y. rewrite Y. reflexivity.
        - intros kk arr B. eapply (runs_exp rt cl). exists O. c0. rewrite (u64_id (kk + 1)) by (unfold two64 in *; lia). reflexivity. }
      cbn [app].
      eapply (runs_seq rt cl lf_mono). { eapply (runs_exp rt cl). exists O. c0. rewrite U8. cbn. change (rt "u32_to_u8") with I64. cbn. rewrite ?u64_id by (unfold two64; lia). reflexivity. }
      eapply (runs_exp rt cl). exists O. c0. reflexivity.
    Qed.
  End Head.
End Label.
