(** The text of idn2_register_ul. *)
From Coq Require Import String.
From Verif Require Import Base PunyBase Uenv DataTypes SpecUtf8 SpecLookup Utf8 Utf8Proofs Lookup
  CLang CLogic CLeaf CDecode CEncode CLabel CBidi CMapData CLookup CRegister CWrap CUni CRegUl SpecCPuny SpecCRegister SpecCWrap SpecCRegUl CLookupMap CLookupName CLabelFun CUnicodeRun CRegisterRun CWrapRun.
Local Open Scope string_scope.
Local Open Scope list_scope.
Local Open Scope Z_scope.
Arguments calls : simpl never.
Arguments types : simpl never.
Arguments regul_program : simpl never.
Arguments cstr : simpl never.
Arguments maybe : simpl never.
Arguments Z.mul : simpl never.
Arguments Z.lor : simpl never.

Section Run.
  Variable reg : option (list Z) -> option (list Z) -> Z -> Z + list Z.
  Variable from : list Z -> option (list Z).
  Notation P := (regul_program reg from).
  Notation rt := (types P).
  Notation cl := (calls P 0).
  Notation R := (runs rt cl).
  Lemma ru_mono : forall n m f vs a, (n <= m)%nat -> cl n f vs a <> Fuel -> cl m f vs a = cl n f vs a. Proof. intros; now apply calls_mono. Qed.
  Notation mono := ru_mono.
  Lemma y_from : forall n t l, cl n "u8_strconv_from_encoding" [] [(t, l)] = on_string (fun s => size_or_null (with_nul (from s))) l. Proof. reflexivity. Qed.
  Lemma y_from_elt : forall n a t l k, cl n "u8_strconv_from_encoding result" [(a, k)] [(t, l)] = on_string (fun s => element (with_nul (from s)) k) l. Proof. reflexivity. Qed.
  Lemma y_rc : forall n a b c t t' l m p q f, cl n "idn2_register_u8" [(a, p); (b, q); (c, f)] [(t, l); (t', m)] = on_two reg rc_sum p q f l m. Proof. reflexivity. Qed.
  Lemma y_size : forall n a b c t t' l m p q f, cl n "idn2_register_u8 size" [(a, p); (b, q); (c, f)] [(t, l); (t', m)] = on_two reg size_sum p q f l m. Proof. reflexivity. Qed.
  Lemma y_elt : forall n a b c d t t' l m p q f k, cl n "idn2_register_u8 *insertname" [(a, p); (b, q); (c, f); (d, k)] [(t, l); (t', m)] = on_two reg (fun x => elt_sum x k) p q f l m. Proof. reflexivity. Qed.
  Lemma fill_ru : forall (ST : option Z -> list (option Z) -> cst) a n e ty te t,
    (forall k arr, R (SExp (EAsg "k" (int 0))) (ST k arr) (Norm (ST (Some 0) arr))) ->
    (forall k arr, 0 <= k < zlen t -> R (SExp (EPost "k")) (ST (Some k) arr) (Norm (ST (Some (k + 1)) arr))) ->
    (forall k arr, evals rt cl (EVar "k") (ST (Some k) arr) (U64, k) (ST (Some k) arr)) ->
    (forall k arr, assoc a (arrs (ST k arr)) = Some (ty, arr)) ->
    (forall k arr arr', mkst (vars (ST k arr)) (update a (fun _ => (ty, arr')) (arrs (ST k arr))) = ST k arr') ->
    (forall k arr, 0 <= k <= zlen t -> evals rt cl n (ST (Some k) arr) (U64, zlen t) (ST (Some k) arr)) ->
    (forall k arr b, 0 <= k < zlen t -> cell (map Some t) k = Val b -> evals rt cl e (ST (Some k) arr) (te, b) (ST (Some k) arr)) ->
    Forall (fun b => cast te ty b = b) t ->
    forall arr k, zlen t <= zlen arr -> zlen t < two64 -> R (fill a (int 0) n e) (ST k arr) (Norm (ST (Some (zlen t)) (in_front t arr))).
  Proof.
    intros ST a n e ty te t H0 H3 HK HI HU HN HE FT arr k LA L6. pose proof (z0 _ t) as T0. unfold in_front.
    refine (fill_runs rt cl mono ST a (int 0) n e 0 t (zlen arr) _ _ _ _ [] arr k eq_refl LA eq_refl).
    - intros. apply H0.
    - intros kk ar B E. eapply (ev_bin rt cl mono _ _ _ _ (U64, kk) (U64, zlen t)); [apply HK|apply HN; exact B|]. cbn. unfold cast. cbn. destruct (kk <? zlen t); reflexivity.
    - intros kk b ar ar' B C IB E SC. rewrite <- (HU (Some kk) ar ar').
      eapply (run_store rt cl mono (ST (Some kk) ar) a _ _ ty ar (U64, 0 + kk) (te, b) ar'); [apply HI| |apply HE; [exact B|exact C]|].
      + eapply (ev_bin rt cl mono _ _ _ _ (I32, 0) (U64, kk)); [exists O; reflexivity|apply HK|]. cbn. unfold cast. cbn. change (u64 0) with 0. replace (0 + kk) with kk by lia. rewrite ?(u64_id kk) by lia. reflexivity.
      + cbn [fst snd]. rewrite (proj1 (Forall_forall _ _) FT b IB). exact SC.
    - exact H3.
  Qed.
  Ltac ff := first [ intros; eapply (runs_exp rt cl); exists O; cc; reflexivity
                   | intros; exists O; reflexivity | reflexivity ].
  Ltac kk1 := intros; eapply (runs_exp rt cl); exists O; cc; match goal with |- context [u64 (?k + 1)] => rewrite (u64_id (k + 1)) by (unfold two64; lia) end; reflexivity.

  Variables (u a : option (list Z)) (f : Z) (has_ : bool) (rest more : list (option Z)).
  Hypothesis F : 0 <= f < 2147483648.
  Hypothesis NU : forall s, u = Some s -> ~ In 0 s.
  Hypothesis NA : forall s, a = Some s -> ~ In 0 s.
  Notation fl := (Z.lor f IDN2_NFC_INPUT).
  Definition rmem (utf8 name : list (option Z)) : list (string * carr) :=
    [("ulabel", (U8, ulabel_array u ++ rest)); ("utf8ulabel", (U8, utf8)); ("alabel", (U8, ulabel_array a ++ more)); ("insertname", (U8, name))].
  Definition rs_ (h rc k : option Z) (utf8 name : list (option Z)) : cst :=
    mkst [("flags", (I32, Some f)); ("has_ulabel", (I32, Some (if u then 1 else 0))); ("has_alabel", (I32, Some (if a then 1 else 0))); ("has_insertname", (I32, Some (if has_ then 1 else 0)));
          ("utf8ulabel != NULL", (I32, h)); ("rc", (I32, rc)); ("k", (U64, k))] (rmem utf8 name).
  Lemma maybe_a : maybe (if a then 1 else 0) (ulabel_array a ++ more) = Val a.
  Proof. destruct a as [s|]; [|reflexivity]. unfold maybe. cbn [Z.eqb]. cbn [ulabel_array]. rewrite cstr_front by (now apply NA). reflexivity. Qed.
  (** From the call on, with the converted U-label [c]. *)
  Definition tail_ : stmt :=
    SSeq (SExp (EAsg "rc" (ECall "idn2_register_u8" ["utf8ulabel"; "alabel"] [EVar "utf8ulabel != NULL"; EVar "has_alabel"; EBin BOr (EVar "flags") (int IDN2_NFC_INPUT)])))
   (SSeq (SIf (EBin Eq (EVar "rc") (int IDN2_OK)) (SIf (EVar "has_insertname")
      (fill "insertname" (int 0) (ECall "idn2_register_u8 size" ["utf8ulabel"; "alabel"] [EVar "utf8ulabel != NULL"; EVar "has_alabel"; EBin BOr (EVar "flags") (int IDN2_NFC_INPUT)])
         (ECall "idn2_register_u8 *insertname" ["utf8ulabel"; "alabel"] [EVar "utf8ulabel != NULL"; EVar "has_alabel"; EBin BOr (EVar "flags") (int IDN2_NFC_INPUT); EVar "k"])) SSkip) SSkip)
    (SReturn (EVar "rc"))).
  Lemma tail_runs : forall c h k X name, maybe h X = Val c -> match reg c a fl with inl rc => rc <> 0 | inr t => zlen t <= 63 end -> zlen name = 64 ->
    exists st, R tail_ (rs_ (Some h) None k X name) (Ret (I32, SpecCRegister.code_of (reg c a fl)) st) /\ arrs st = rmem X (inserted has_ (reg c a fl) name).
  Proof.
    intros c h k X name MX GV LN. pose proof maybe_a as MA. set (r := reg c a fl) in *.
    assert (FL : forall rc kk nm, evals rt cl (EBin BOr (EVar "flags") (int IDN2_NFC_INPUT)) (rs_ (Some h) rc kk X nm) (I32, fl) (rs_ (Some h) rc kk X nm)).
    { intros. exists O. cc. replace (f <? 0) with false by lia. reflexivity. }
    assert (AR : forall rc kk nm, Forall2 (fun x v => evals rt cl x (rs_ (Some h) rc kk X nm) v (rs_ (Some h) rc kk X nm)) [EVar "utf8ulabel != NULL"; EVar "has_alabel"; EBin BOr (EVar "flags") (int IDN2_NFC_INPUT)] [(I32, h); (I32, if a then 1 else 0); (I32, fl)]).
    { intros. constructor; [exists O; reflexivity|]. constructor; [exists O; reflexivity|]. constructor; [apply FL|constructor]. }
    assert (TW : forall g, on_two reg g h (if a then 1 else 0) fl X (ulabel_array a ++ more) = g r) by (intros g; unfold on_two; rewrite MX; cbn [rbind]; rewrite MA; reflexivity).
    assert (CALL : R (SExp (EAsg "rc" (ECall "idn2_register_u8" ["utf8ulabel"; "alabel"] [EVar "utf8ulabel != NULL"; EVar "has_alabel"; EBin BOr (EVar "flags") (int IDN2_NFC_INPUT)]))) (rs_ (Some h) None k X name) (Norm (rs_ (Some h) (Some (SpecCRegister.code_of r)) k X name))).
    { eapply (run_set rt cl _ _ _ (I32, SpecCRegister.code_of r) ((I32, SpecCRegister.code_of r), _)); [|reflexivity].
      apply (ev_call rt cl mono _ "idn2_register_u8" ["utf8ulabel"; "alabel"] _ _ _ [(U8, X); (U8, ulabel_array a ++ more)] (AR None k name)); [reflexivity|]. intros m. rewrite y_rc, TW. reflexivity. }
    assert (EQ : forall v kk nm, evals rt cl (EBin Eq (EVar "rc") (int IDN2_OK)) (rs_ (Some h) (Some v) kk X nm) (I32, if v =? 0 then 1 else 0) (rs_ (Some h) (Some v) kk X nm)).
    { intros v kk nm. eapply (ev_bin rt cl mono _ _ _ _ (I32, v) (I32, 0)); [exists O; reflexivity|exists O; reflexivity|]. cbn. unfold cast. cbn. destruct (v =? 0); reflexivity. }
    assert (RET : forall v kk nm, R (SReturn (EVar "rc")) (rs_ (Some h) (Some v) kk X nm) (Ret (I32, v) (rs_ (Some h) (Some v) kk X nm))) by (intros; eapply (runs_ret rt cl); exists O; reflexivity).
    unfold tail_. destruct r as [e|t] eqn:ER; cbn [SpecCRegister.code_of inserted] in *.
    - exists (rs_ (Some h) (Some e) k X name). split; [|reflexivity]. eapply (runs_seq rt cl mono); [exact CALL|]. eapply (runs_seq rt cl mono); [|apply RET]. eapply (runs_if rt cl mono); [apply EQ|]. cbn [snd]. replace (e =? 0) with false by lia. apply runs_skip.
    - pose proof (z0 _ t) as T0. assert (ZT : zlen (t ++ [0]) = zlen t + 1) by (rewrite zlen_app; reflexivity).
      assert (HH : forall kk nm, evals rt cl (EVar "has_insertname") (rs_ (Some h) (Some 0) kk X nm) (I32, if has_ then 1 else 0) (rs_ (Some h) (Some 0) kk X nm)) by (intros; exists O; reflexivity).
      assert (exists kk, R (SIf (EVar "has_insertname")
      (fill "insertname" (int 0) (ECall "idn2_register_u8 size" ["utf8ulabel"; "alabel"] [EVar "utf8ulabel != NULL"; EVar "has_alabel"; EBin BOr (EVar "flags") (int IDN2_NFC_INPUT)])
         (ECall "idn2_register_u8 *insertname" ["utf8ulabel"; "alabel"] [EVar "utf8ulabel != NULL"; EVar "has_alabel"; EBin BOr (EVar "flags") (int IDN2_NFC_INPUT); EVar "k"])) SSkip) (rs_ (Some h) (Some 0) k X name) (Norm (rs_ (Some h) (Some 0) kk X (if has_ then with_string t name else name)))) as (kk & ST).
      { destruct has_ eqn:EH.
        - exists (Some (zlen (t ++ [0]))). eapply (runs_if rt cl mono); [apply HH|]. cbn [snd Z.eqb]. rewrite <- front_string.
          apply (fill_ru (fun kk arr => rs_ (Some h) (Some 0) kk X arr) "insertname" _ _ U8 U8 (t ++ [0])); [ff|kk1|ff|ff|ff| | |apply byte_cast|lia|unfold two64; lia].
          + intros kk arr B. apply (ev_call rt cl mono _ "idn2_register_u8 size" ["utf8ulabel"; "alabel"] _ _ _ [(U8, X); (U8, ulabel_array a ++ more)] (AR (Some 0) (Some kk) arr)); [reflexivity|]. intros m. rewrite y_size, TW. reflexivity.
          + intros kk arr b B C. apply (ev_call rt cl mono _ "idn2_register_u8 *insertname" ["utf8ulabel"; "alabel"] _ [(I32, h); (I32, if a then 1 else 0); (I32, fl); (U64, kk)] _ [(U8, X); (U8, ulabel_array a ++ more)]); [|reflexivity|].
            * constructor; [exists O; reflexivity|]. constructor; [exists O; reflexivity|]. constructor; [apply FL|]. constructor; [exists O; reflexivity|constructor].
            * intros m. rewrite y_elt, TW. exact C.
        - exists k. eapply (runs_if rt cl mono); [apply HH|]. apply runs_skip. }
      exists (rs_ (Some h) (Some 0) kk X (if has_ then with_string t name else name)). split; [|reflexivity].
      eapply (runs_seq rt cl mono); [exact CALL|]. eapply (runs_seq rt cl mono); [|apply RET]. eapply (runs_if rt cl mono); [apply EQ|]. cbn [snd Z.eqb]. exact ST.
  Qed.
  Definition regul_result : Z + list Z := match u with None => reg None a fl | Some s => match from s with None => inl IDN2_ICONV_FAIL | Some b => reg (Some b) a fl end end.
  Lemma regul_runs : match regul_result with inl rc => rc <> 0 | inr t => zlen t <= 63 end -> forall utf8 name,
    (forall s b, u = Some s -> from s = Some b -> ~ In 0 b /\ zlen b < 4611686018427387904 /\ zlen b < zlen utf8) -> zlen name = 64 ->
    exists st utf8', R (f_body c_register_ul) (rs_ None None None utf8 name) (Ret (I32, SpecCRegister.code_of regul_result) st) /\ arrs st = rmem utf8' (inserted has_ regul_result name).
  Proof.
    intros GV utf8 name H LN.
    assert (S0 : R (SExp (EAsg "utf8ulabel != NULL" (int 0))) (rs_ None None None utf8 name) (Norm (rs_ (Some 0) None None utf8 name))) by (eapply (runs_exp rt cl); exists O; cc; reflexivity).
    assert (HU : forall k X, evals rt cl (EVar "has_ulabel") (rs_ (Some 0) None k X name) (I32, if u then 1 else 0) (rs_ (Some 0) None k X name)) by (intros; exists O; reflexivity).
    unfold regul_result in *. destruct u as [s|] eqn:EU.
    2:{ destruct (tail_runs None 0 None utf8 name eq_refl GV LN) as (st & RR & AR). unfold rs_, rmem in *. rewrite EU in *. exists st, utf8. split; [|exact AR].
        eapply (runs_seq rt cl mono); [exact S0|]. eapply (runs_seq rt cl mono); [|exact RR]. eapply (runs_if rt cl mono); [apply HU|]. apply runs_skip. }
    pose proof (cstr_front s rest (NU s eq_refl)) as CS.
    assert (SZ : forall h rc k X nm, evals rt cl (ECall "u8_strconv_from_encoding" ["ulabel"] []) (rs_ h rc k X nm) (I64, match with_nul (from s) with Some x => zlen x | None => -1 end) (rs_ h rc k X nm)).
    { intros. exists O. cc. rewrite y_from. unfold on_string. rewrite EU. cbn [ulabel_array]. rewrite CS. reflexivity. }
    destruct (from s) as [b|] eqn:FB; cbn [with_nul] in SZ.
    2:{ exists (rs_ (Some 0) None None utf8 name), utf8. split; [|unfold rs_, rmem; reflexivity].
        eapply (runs_seq rt cl mono); [exact S0|]. eapply (runs_seq_stop rt cl); [|exact Logic.I]. eapply (runs_if rt cl mono); [apply HU|]. cbn [snd Z.eqb]. eapply (runs_seq_stop rt cl); [|exact Logic.I].
        eapply (runs_if rt cl mono). { eapply (ev_bin rt cl mono _ _ _ _ (I64, -1) (I32, -1)); [apply SZ|exists O; reflexivity|reflexivity]. } eapply (runs_ret rt cl). exists O. reflexivity. }
    destruct (H s b eq_refl FB) as (NB & LB & LU). pose proof (z0 _ b) as B0. assert (ZB : zlen (b ++ [0]) = zlen b + 1) by (rewrite zlen_app; reflexivity).
    set (X := in_front (b ++ [0]) utf8).
    assert (MX : maybe 1 X = Val (Some b)) by (unfold maybe, X, in_front; cbn [Z.eqb]; rewrite cstr_front by exact NB; reflexivity).
    destruct (tail_runs (Some b) 1 (Some (zlen (b ++ [0]))) X name MX GV LN) as (st & RR & AR). exists st, X. split; [|rewrite AR; unfold rmem; rewrite EU; reflexivity].
    eapply (runs_seq rt cl mono); [exact S0|]. eapply (runs_seq rt cl mono); [|exact RR]. eapply (runs_if rt cl mono); [apply HU|]. cbn [snd Z.eqb].
    eapply (runs_seq rt cl mono). { eapply (runs_if rt cl mono). { eapply (ev_bin rt cl mono _ _ _ _ (I64, zlen (b ++ [0])) (I32, -1)); [apply SZ|exists O; reflexivity|reflexivity]. }
      cbn. unfold cast. cbn. replace (zlen (b ++ [0]) =? -1) with false by lia. cbn. apply runs_skip. }
    eapply (runs_seq rt cl mono).
    { apply (fill_ru (fun kk arr => rs_ (Some 0) None kk arr name) "utf8ulabel" _ _ U8 U8 (b ++ [0])); [ff|kk1|ff|ff|ff| | |apply byte_cast|lia|unfold two64; lia].
      - intros kk arr B. destruct (SZ (Some 0) None (Some kk) arr name) as (m & E). exists m. cbn [eval] in E |- *. rewrite E. cbn. unfold cast. cbn. rewrite (u64_id (zlen (b ++ [0]))) by (unfold two64; lia). reflexivity.
      - intros kk arr c B C. exists O. cc. rewrite y_from_elt. unfold on_string. rewrite EU. cbn [ulabel_array]. rewrite CS. cbn [rbind]. rewrite FB. cbn [element with_nul]. rewrite C. reflexivity. }
    eapply (runs_exp rt cl). exists O. cc. reflexivity.
  Qed.
End Run.
