(** decode.c: the text returns what the model returns, and what IDNA asks for. *)
From Coq Require Import String.
From Verif Require Import Base PunyBase SpecUtf8 SpecLookup SpecUnicode SpecUniRefusal Api ApiProofs NonZero DecodeProofs UniRefusal CLang CLogic CLeaf CLookup CUnicode SpecCPuny SpecCUnicode CLabelFun CUnicodeRun.
Local Open Scope string_scope.
Local Open Scope list_scope.
Local Open Scope Z_scope.
Arguments calls : simpl never.
Arguments types : simpl never.
Arguments unicode_program : simpl never.

Lemma u_of_runs : forall f args mem v mem' st, f_ret f = I32 -> runs (types unicode_program) (calls unicode_program 0) (f_body f) (mkst (declare f args) mem) (Ret (I32, v) st) -> arrs st = mem' ->
  returns (fun n => run unicode_program f 0 n args mem) (v, mem').
Proof. intros f args mem v mem' st RT (m & E & _) A. exists m. intros n N. unfold run. rewrite (runs_at _ _ un_mono _ _ _ _ E ltac:(discriminate) n N). cbn [fst snd]. rewrite RT, A. reflexivity. Qed.
Lemma u_fun : forall f args mem v1 m1 v2 m2, returns (fun n => run unicode_program f 0 n args mem) (v1, m1) -> returns (fun n => run unicode_program f 0 n args mem) (v2, m2) -> v1 = v2 /\ m1 = m2.
Proof. intros f args mem v1 m1 v2 m2 A B. destruct A as (i & A), B as (j & B). specialize (A (i + j)%nat ltac:(lia)). specialize (B (i + j)%nat ltac:(lia)). rewrite A in B. apply (f_equal (fun r => match r with Val x => x | _ => (0, []) end)) in B. pose proof B as E. split; [exact (f_equal fst E)|exact (f_equal snd E)]. Qed.

Lemma text_model : forall ch s, char_type ch -> c_string s -> zlen s < 4611686018427387904 ->
  match unicode s with Ok d => unicode_text ch s (inr d) | Fail rc => unicode_text ch s (inl rc) | _ => False end.
Proof.
  intros ch s CH CS LS. pose proof (unicode_safe s CS ltac:(unfold two64; lia)) as SF. pose proof (nz_unicode s) as NZ.
  assert (RR : forall (ob : bool) lu, zlen lu = 63 -> match unicode s with
    | Ok d => exists rest lu', if ob then unicode_returns ch s ob lu 0 (map Some (d ++ [0]) ++ rest) lu' (Some (zlen d + 1)) else unicode_returns ch s ob lu 0 (map Some d ++ rest) lu' None
    | Fail r => exists out' lu', unicode_returns ch s ob lu r out' lu' None
    | _ => True end).
  { intros ob lu LU. pose proof (unicode_runs ch CH s CS LS ob lu LU) as U. destruct (unicode s) as [d|r| |]; try exact Logic.I.
    - destruct U as (st & rest & lu' & G & M). exists rest, lu'. destruct ob; (eapply u_of_runs; [reflexivity|exact G|exact M]).
    - destruct U as (st & o & lu' & G & M). exists o, lu'. destruct ob; (eapply u_of_runs; [reflexivity|exact G|exact M]). }
  destruct (unicode s) as [d|r| |]; try contradiction.
  - intros u LU. split; [exact (RR true u LU)|exact (RR false u LU)].
  - intros u LU. split; [apply NZ; reflexivity|]. intros ob. exact (RR ob u LU).
Qed.
Lemma inr_eq : forall d e r1 r2, map Some (d ++ [0]) ++ r1 = map Some (e ++ [0]) ++ r2 -> zlen d = zlen e -> d = e.
Proof.
  induction d as [|a d IH]; intros [|b e] r1 r2 E L; rewrite ?zlen_cons in L; change (zlen (@nil Z)) with 0 in L; try (pose proof (zlen_nonneg _ d)); try (pose proof (zlen_nonneg _ e)); try lia; [reflexivity|].
  cbn [app map] in E. pose proof (f_equal (fun l => match l with Some x :: _ => x | _ => 0 end) E) as H1. cbn in H1. subst b. f_equal. apply (IH e r1 r2); [|lia]. exact (f_equal (@tl _) E).
Qed.
Lemma text_fun : forall ch s r1 r2, unicode_text ch s r1 -> unicode_text ch s r2 -> r1 = r2.
Proof.
  intros ch s r1 r2 A B. specialize (A (repeat None 63) eq_refl). specialize (B (repeat None 63) eq_refl).
  assert (FU : forall ob u c1 o1 u1 n1 c2 o2 u2 n2, unicode_returns ch s ob u c1 o1 u1 n1 -> unicode_returns ch s ob u c2 o2 u2 n2 -> c1 = c2 /\ o1 = o2 /\ n1 = n2).
  { intros ob u c1 o1 u1 n1 c2 o2 u2 n2 G H. destruct (u_fun _ _ _ _ _ _ _ G H) as (E & M). split; [exact E|]. split; [exact (f_equal (fun m => match m with _ :: (_, (_, a)) :: _ => a | _ => [] end) M)|exact (f_equal (fun m => match m with _ :: _ :: _ :: (_, (_, [z])) :: _ => z | _ => None end) M)]. }
  destruct r1 as [e1|d1], r2 as [e2|d2].
  - destruct A as (_ & A), B as (_ & B). destruct (A true) as (o1 & u1 & A1), (B true) as (o2 & u2 & B1). destruct (FU _ _ _ _ _ _ _ _ _ _ A1 B1) as (E & _). congruence.
  - destruct A as (N & A), B as (B & _). destruct (A true) as (o1 & u1 & A1), B as (o2 & u2 & B1). destruct (FU _ _ _ _ _ _ _ _ _ _ A1 B1) as (E & _). contradiction.
  - destruct A as (A & _), B as (N & B). destruct (B true) as (o1 & u1 & A1), A as (o2 & u2 & B1). destruct (FU _ _ _ _ _ _ _ _ _ _ A1 B1) as (E & _). contradiction.
  - destruct A as (A & _), B as (B & _). destruct A as (o1 & u1 & A1), B as (o2 & u2 & B1). destruct (FU _ _ _ _ _ _ _ _ _ _ A1 B1) as (_ & E & L). f_equal. apply (inr_eq d1 d2 o1 o2 E). apply (f_equal (fun n => match n with Some z => z | None => 0 end)) in L. lia.
Qed.
Lemma text_exists : forall ch s, char_type ch -> c_string s -> zlen s < 4611686018427387904 -> exists r, unicode_text ch s r /\ forall r', unicode_text ch s r' -> r' = r.
Proof.
  intros ch s CH CS LS. pose proof (text_model ch s CH CS LS) as T. destruct (unicode s) as [d|rc| |]; try contradiction; (eexists; split; [exact T|]; intros r' H; exact (text_fun _ _ _ _ H T)).
Qed.
Lemma text_ok : forall ch s d, char_type ch -> c_string s -> zlen s < 4611686018427387904 -> (unicode_text ch s (inr d) <-> unicode_name s d).
Proof.
  intros ch s d CH CS LS. pose proof (text_model ch s CH CS LS) as T. rewrite <- (unicode_iff s d CS ltac:(unfold two64; lia)). split.
  - intros H. destruct (unicode s) as [d'|rc| |]; try contradiction; pose proof (text_fun _ _ _ _ T H) as E; [|discriminate E]. apply (f_equal (fun r : Z + list Z => match r with inr x => x | inl _ => d end)) in E. cbn in E. rewrite E. reflexivity.
  - intros H. rewrite H in T. exact T.
Qed.
Lemma text_code : forall ch s rc, char_type ch -> c_string s -> zlen s < 4611686018427387904 -> (unicode_text ch s (inl rc) <-> unicode_refused s rc).
Proof.
  intros ch s rc CH CS LS. pose proof (text_model ch s CH CS LS) as T. rewrite <- (unicode_fail s rc CS ltac:(unfold two64; lia)). split.
  - intros H. destruct (unicode s) as [d'|r| |]; try contradiction; pose proof (text_fun _ _ _ _ T H) as E; [discriminate E|]. apply (f_equal (fun r : Z + list Z => match r with inl x => x | inr _ => rc end)) in E. cbn in E. rewrite E. reflexivity.
  - intros H. rewrite H in T. exact T.
Qed.
Lemma text_char : forall s r, c_string s -> zlen s < 4611686018427387904 -> (unicode_text I8 s r <-> unicode_text U8 s r).
Proof.
  intros s [rc|d] CS LS.
  - rewrite (text_code I8 s rc), (text_code U8 s rc) by (try assumption; (left; reflexivity) || (right; reflexivity)). reflexivity.
  - rewrite (text_ok I8 s d), (text_ok U8 s d) by (try assumption; (left; reflexivity) || (right; reflexivity)). reflexivity.
Qed.

(** The copy of idn2_to_unicode_44i. *)
Lemma strlen_ok : forall d rest, ~ In 0 d -> u32_strlen (map Some (d ++ 0 :: rest)) = Val (zlen d).
Proof.
  induction d as [|c d IH]; intros rest N; [reflexivity|]. cbn [app map u32_strlen]. replace (c =? 0) with false by (symmetry; apply Z.eqb_neq; intros ->; apply N; left; reflexivity).
  rewrite IH by (intros Q; apply N; right; exact Q). cbn [rbind]. rewrite zlen_cons. reflexivity.
Qed.
Section Copy.
  Notation rt := (types unicode_program). Notation cl := (calls unicode_program 0). Notation R := (runs rt cl). Notation mono := un_mono.
  Variables (d rest : list Z) (ho hl : bool) (outlen : Z).
  Hypothesis D0 : ~ In 0 d.
  Hypothesis DR : Forall (fun c => 0 <= c < two32) d.
  Hypothesis LD : zlen d < 4611686018427387904.
  Hypothesis LO : 0 <= outlen < two64.
  Definition cs (len k : option Z) (out : list (option Z)) (ol : Z) : cst :=
    mkst [("has_out", (I32, Some (if ho then 1 else 0))); ("has_outlen", (I32, Some (if hl then 1 else 0))); ("len", (U64, len)); ("k", (U64, k))]
      [("output_u32", (U32, map Some (d ++ 0 :: rest))); ("out", (U32, out)); ("outlen", (U64, [Some ol]))].
  Definition n_copied : nat := if ho && hl then Nat.min (length d) (Z.to_nat outlen) else 0.
  Lemma copied_len : zlen (firstn n_copied d) = if ho && hl then Z.min (zlen d) outlen else 0.
  Proof. unfold zlen, n_copied. rewrite firstn_length. destruct (ho && hl); lia. Qed.
  Lemma copy_runs : forall out, zlen (firstn n_copied d) <= zlen out ->
    exists st, R (f_body c_44i_copy) (cs None None out outlen) (Ret (I32, 0) st) /\
      arrs st = [("output_u32", (U32, map Some (d ++ 0 :: rest))); ("out", (U32, map Some (firstn n_copied d) ++ skipn n_copied out)); ("outlen", (U64, [Some (if hl then zlen d else outlen)]))].
  Proof.
    intros out LE. pose proof (zlen_nonneg _ d) as ZD. pose proof copied_len as CL. unfold two64 in LO.
    assert (SK : skipn (length (firstn n_copied d)) out = skipn n_copied out). { f_equal. rewrite firstn_length. unfold n_copied. destruct (ho && hl); lia. }
    assert (S1 : R (SExp (EAsg "len" (ECall "u32_strlen" ["output_u32"] []))) (cs None None out outlen) (Norm (cs (Some (zlen d)) None out outlen))).
    { eapply (run_set rt cl _ _ _ (U64, zlen d) (U64, zlen d, _)).
      - apply (ev_call rt cl mono _ "u32_strlen" ["output_u32"] [] [] (zlen d) [(U32, map Some (d ++ 0 :: rest))]); [constructor|reflexivity|]. intros n. exact (strlen_ok d rest D0).
      - reflexivity. }
    set (N := ECond (EBin Lt (EVar "len") (EIdx "outlen" (int 0))) (EVar "len") (EIdx "outlen" (int 0))).
    assert (EC : evals rt cl (EAnd (EVar "has_out") (EVar "has_outlen")) (cs (Some (zlen d)) None out outlen) (I32, if ho && hl then 1 else 0) (cs (Some (zlen d)) None out outlen)) by (exists O; cc; destruct ho, hl; reflexivity).
    assert (S2 : exists k, R (SIf (EAnd (EVar "has_out") (EVar "has_outlen")) (fill "out" (int 0) N (EIdx "output_u32" (EVar "k"))) SSkip) (cs (Some (zlen d)) None out outlen) (Norm (cs (Some (zlen d)) k (map Some (firstn n_copied d) ++ skipn n_copied out) outlen))).
    { destruct (ho && hl) eqn:HB.
      - exists (Some (zlen (firstn n_copied d))). eapply (runs_if rt cl mono); [exact EC|]. cbn [snd Z.eqb].
        rewrite <- SK. refine (fill_runs rt cl mono (fun kk arr => cs (Some (zlen d)) kk arr outlen) "out" (int 0) N _ 0 (firstn n_copied d) (zlen out) _ _ _ _ [] out None _ _ _); [| | | |reflexivity|exact LE|reflexivity].
        + intros kk arr _. eapply (runs_exp rt cl). exists O. cc. reflexivity.
        + intros kk arr B E. rewrite CL in *. exists O. unfold N. cc. change (cell [Some outlen] 0) with (Val outlen). cc. destruct (zlen d <? outlen) eqn:Q; cc; try (change (cell [Some outlen] 0) with (Val outlen)); cc; (replace (Z.min (zlen d) outlen) with (if zlen d <? outlen then zlen d else outlen) by (destruct (zlen d <? outlen) eqn:Q2; lia)); rewrite Q; destruct (_ <? _); reflexivity.
        + intros kk b arr arr' B C IB E S. assert (IR : 0 <= b < two32). { apply (proj1 (Forall_forall _ _) DR). rewrite <- (firstn_skipn n_copied d). apply in_app_iff. left. exact IB. }
          apply (run_store rt cl mono (cs (Some (zlen d)) (Some kk) arr outlen) "out" _ _ U32 arr (U64, 0 + kk) (U32, b) arr'); [reflexivity| | |exact S].
          * exists O. cc. rewrite (u64_id (0 + kk)) by (unfold two64; rewrite CL in B; lia). reflexivity.
          * eapply (ev_idx rt cl); [reflexivity|exists O; reflexivity|]. cbn [snd]. rewrite <- (firstn_skipn n_copied d), <- app_assoc, (map_app (@Some Z)). apply cell_front. exact C.
        + intros kk arr B. eapply (runs_exp rt cl). exists O. cc. rewrite (u64_id (kk + 1)) by (unfold two64; rewrite CL in B; lia). reflexivity.
      - exists None. assert (NC : n_copied = O) by (unfold n_copied; rewrite HB; reflexivity). rewrite NC. cbn [firstn map app skipn]. eapply (runs_if rt cl mono); [exact EC|]. apply runs_skip. }
    destruct S2 as (k & S2). eexists. split.
    - change (f_body c_44i_copy) with (SSeq (SExp (EAsg "len" (ECall "u32_strlen" ["output_u32"] []))) (SSeq (SIf (EAnd (EVar "has_out") (EVar "has_outlen")) (fill "out" (int 0) N (EIdx "output_u32" (EVar "k"))) SSkip) (SSeq (SIf (EVar "has_outlen") (SStore "outlen" (int 0) (EVar "len")) SSkip) (SReturn (int 0))))).
      eapply (runs_seq rt cl mono); [exact S1|]. eapply (runs_seq rt cl mono); [exact S2|].
      apply (runs_seq rt cl mono _ _ _ (cs (Some (zlen d)) k (map Some (firstn n_copied d) ++ skipn n_copied out) (if hl then zlen d else outlen))); [|eapply (runs_ret rt cl); exists O; cc; reflexivity].
      eapply (runs_if rt cl mono); [exists O; cc; reflexivity|]. destruct hl; cbn [snd Z.eqb].
      + exists O. split; [|discriminate]. cc. reflexivity.
      + apply runs_skip.
    - reflexivity.
  Qed.
End Copy.
Lemma copy_ok : forall d rest ho hl out outlen, ~ In 0 d -> Forall (fun c => 0 <= c < two32) d -> zlen d < 4611686018427387904 -> 0 <= outlen < two64 ->
  (ho = true -> hl = true -> Z.min (zlen d) outlen <= zlen out) ->
  let k := if ho && hl then Nat.min (length d) (Z.to_nat outlen) else 0%nat in
  copy_returns d rest ho hl out outlen (map Some (firstn k d) ++ skipn k out) (if hl then zlen d else outlen).
Proof.
  intros d rest ho hl out outlen D0 DR LD LO LE k. destruct (copy_runs d rest ho hl outlen D0 DR LD LO out) as (st & G & M).
  - rewrite (copied_len d ho hl outlen LO). destruct ho, hl; cbn [andb]; try apply zlen_nonneg. apply LE; reflexivity.
  - destruct ho, hl; (eapply u_of_runs; [reflexivity|exact G|exact M]).
Qed.
