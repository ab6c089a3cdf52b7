(** idn2_to_unicode_44i: the text returns what the specifications ask for. *)
From Coq Require Import String.
From Verif Require Import Base PunyBase Uenv DataTypes SpecUtf8 SpecLookup SpecUnicode SpecUniRefusal Utf8 Utf8Proofs Lookup Api DecodeProofs LookupExamples
  CLang CLogic CLeaf CUnicode CUni CUni44 SpecCPuny SpecCRegister SpecCUnicode SpecCWrap SpecCUni SpecCUni44 CLabelFun CUnicodeCases CWrapCases CUniRun CUniTop CUniCases CUni44Run.
Local Open Scope string_scope.
Local Open Scope list_scope.
Local Open Scope Z_scope.
Arguments calls : simpl never.
Arguments types : simpl never.
Arguments uni44_program : simpl never.

Section Top.
  Variable g : list Z -> Z + list Z.
  Notation P := (uni44_program g).
  Lemma x_of_runs : forall f args mem v mem' st, f_ret f = I32 -> runs (types P) (calls P 0) (f_body f) (mkst (declare f args) mem) (Ret (I32, v) st) -> arrs st = mem' ->
    returns (fun n => run P f 0 n args mem) (v, mem').
  Proof. intros f args mem v mem' st RT (m & E & _) A. exists m. intros n N. unfold run. rewrite (runs_at _ _ (u44_mono g) _ _ _ _ E ltac:(discriminate) n N). cbn [fst snd]. rewrite RT, A. reflexivity. Qed.
  Lemma x_fun : forall f args mem v1 m1 v2 m2, returns (fun n => run P f 0 n args mem) (v1, m1) -> returns (fun n => run P f 0 n args mem) (v2, m2) -> v1 = v2 /\ m1 = m2.
  Proof. intros f args mem v1 m1 v2 m2 A B. destruct A as (i & A), B as (j & B). specialize (A (i + j)%nat ltac:(lia)). specialize (B (i + j)%nat ltac:(lia)). rewrite A in B. apply (f_equal (fun r => match r with Val x => x | _ => (0, []) end)) in B. pose proof B as E. split; [exact (f_equal fst E)|exact (f_equal snd E)]. Qed.
  Lemma size_44 : forall n, 0 <= n -> n + 1 < 4611686018427387904 -> text_44i_size g n (4 * (n + 1)).
  Proof.
    intros n N0 N1 x. destruct (size44_runs g n x N0 N1) as (st & RR & AR). eapply x_of_runs; [reflexivity|exact RR|exact AR].
  Qed.
  Hypothesis GI : uni4_is g.
  Lemma g_is : forall v, ~ In 0 v -> zlen v < 100000000000000000 ->
    (forall d, g v = inr d <-> exists b, utf8 v b /\ unicode_name b d) /\ (forall rc, g v = inl rc <-> (~ exists b, utf8 v b) /\ rc = IDN2_ENCODING_ERROR \/ exists b, utf8 v b /\ unicode_refused b rc) /\
    match g v with inl rc => rc <> 0 | inr d => ~ In 0 d /\ zlen d <= 255 end.
  Proof.
    intros v N L. destruct GI as (u4 & u8 & ul & from & to & U4 & T). specialize (T v N L). pose proof (a_iff u4 u8 ul from to U4 v N L) as AI. assert (GE : a_result u4 v = g v) by (now apply AI).
    split; [intros d; rewrite <- (a_name u4 u8 ul from to U4 v d N L), (AI (inr d)), GE; reflexivity|]. split; [intros rc; rewrite <- (a_code u4 u8 ul from to U4 v rc N L), (AI (inl rc)), GE; reflexivity|].
    rewrite <- GE. unfold a_result. destruct (u32_to_u8 v) as [s|] eqn:E; [|unfold IDN2_ENCODING_ERROR; lia]. destruct (utf8_c v s N L E) as (C & LS). exact (u4_good u4 U4 s C LS).
  Qed.
  Lemma until_len : forall l v, until_zero l v -> zlen l < 100000000000000000 -> zlen v < 100000000000000000.
  Proof. intros l v (_ & [-> | (r & ->)]) L; [exact L|]. rewrite zlen_app in L. pose proof (zlen_nonneg _ (0 :: r)). lia. Qed.
  Lemma t44_ok : forall l v b d ho hl out ol, zlen l < 100000000000000000 -> until_zero l v -> utf8 v b -> unicode_name b d -> 0 <= ol < two64 -> (ho = true -> hl = true -> Z.min (zlen d) ol <= zlen out) ->
    text_44i g l ho hl out ol IDN2_OK (first_of (if ho && hl then Nat.min (length d) (Z.to_nat ol) else 0) d out) (if hl then zlen d else ol).
  Proof.
    intros l v b d ho hl out ol LL UZ T UN LO RM rest i32 o32 L3 L2. destruct (g_is v (proj1 UZ) (until_len l v UZ LL)) as (GN & _ & GG).
    assert (E : g v = inr d) by (apply GN; eauto). destruct (g_given g l v rest ho hl ol LL UZ LO GG d E i32 o32 out L3 L2) as (st & o' & RR & AR).
    - rewrite (copied_zlen ho hl ol LO). destruct ho, hl; cbn [andb]; try apply zlen_nonneg. apply RM; reflexivity.
    - exists (map Some (l ++ [0])), o'. eapply x_of_runs; [reflexivity|exact RR|exact AR].
  Qed.
  Lemma t44_code : forall l v rc ho hl out ol, zlen l < 100000000000000000 -> until_zero l v -> (~ exists b, utf8 v b) /\ rc = IDN2_ENCODING_ERROR \/ (exists b, utf8 v b /\ unicode_refused b rc) ->
    text_44i g l ho hl out ol rc out ol.
  Proof.
    intros l v rc ho hl out ol LL UZ H rest i32 o32 L3 L2. destruct (g_is v (proj1 UZ) (until_len l v UZ LL)) as (_ & GC & GG).
    assert (E : g v = inl rc) by (now apply GC). destruct (g_refused g l v rest ho hl ol LL UZ GG rc E i32 o32 out L3) as (st & RR & AR).
    exists (map Some (l ++ [0])), o32. eapply x_of_runs; [reflexivity|exact RR|exact AR].
  Qed.
  Lemma t44_either : forall v, ~ In 0 v -> zlen v < 100000000000000000 -> (exists b d, utf8 v b /\ unicode_name b d) \/ exists rc, rc <> IDN2_OK /\ ((~ exists b, utf8 v b) /\ rc = IDN2_ENCODING_ERROR \/ exists b, utf8 v b /\ unicode_refused b rc).
  Proof.
    intros v N L. destruct (g_is v N L) as (GN & GC & GG). destruct (g v) as [rc|d]; [right; exists rc; split; [exact GG|now apply GC]|left]. destruct (proj1 (GN d) eq_refl) as (b & H). exists b, d. exact H.
  Qed.
End Top.
Lemma t44_once : forall g l ho hl out ol rc1 o1 n1 rc2 o2 n2, text_44i g l ho hl out ol rc1 o1 n1 -> text_44i g l ho hl out ol rc2 o2 n2 -> rc1 = rc2 /\ o1 = o2 /\ n1 = n2.
Proof.
  intros g l ho hl out ol rc1 o1 n1 rc2 o2 n2 A B. set (i := repeat (@None Z) (S (length l))). assert (LI : zlen i = zlen l + 1) by (unfold i, zlen; rewrite repeat_length; lia).
  assert (L2 : 256 <= zlen (repeat (@None Z) 256)) by (unfold zlen; rewrite repeat_length; lia).
  destruct (A [] i _ LI L2) as (i1 & p1 & A1), (B [] i _ LI L2) as (i2 & p2 & B1). destruct (x_fun _ _ _ _ _ _ _ _ A1 B1) as (E & M). split; [exact E|].
  split; [exact (f_equal (fun m => match m with [_; _; _; (_, (_, a)); _] => a | _ => [] end) M)|]. apply (f_equal (fun m => match m with [_; _; _; _; (_, (_, [Some z]))] => z | _ => 0 end)) in M. exact M.
Qed.
Lemma have_44 : exists g, uni4_is g.
Proof.
  exists (a_result u4_of), u4_of, u4_of, u4_of, (fun _ => None), (fun _ => None). split; [exact u4_of_is|]. intros v N L. apply (a_iff u4_of u4_of u4_of _ _ u4_of_is v N L). reflexivity.
Qed.
Lemma either_44 : forall v, ~ In 0 v -> zlen v < 100000000000000000 -> (exists b d, utf8 v b /\ unicode_name b d) \/ exists rc, rc <> IDN2_OK /\ ((~ exists b, utf8 v b) /\ rc = IDN2_ENCODING_ERROR \/ exists b, utf8 v b /\ unicode_refused b rc).
Proof. destruct have_44 as (g & H). exact (t44_either g H). Qed.
Definition g_of : list Z -> Z + list Z := a_result u4_of.
Lemma g_of_is : uni4_is g_of.
Proof.
  exists u4_of, u4_of, u4_of, (fun _ => None), (fun _ => None). split; [exact u4_of_is|]. intros v N L. apply (a_iff u4_of u4_of u4_of _ _ u4_of_is v N L). reflexivity.
Qed.
Lemma buecher_is : until_zero (buecher_in ++ [0; 55296]) buecher_in /\ utf8 buecher_in buecher /\ unicode_name buecher buecher_u.
Proof.
  split; [split; [cbn; lia|right; exists [55296]; reflexivity]|]. split; [apply u32_to_u8_iff; reflexivity|]. apply unicode_iff; [exact buecher_c|unfold two64, buecher; vm_compute; reflexivity|vm_compute; reflexivity].
Qed.
Lemma case_44 : uni4_is g_of /\ until_zero (buecher_in ++ [0; 55296]) buecher_in /\ utf8 buecher_in buecher /\ unicode_name buecher buecher_u /\ let P := text_44i g_of (buecher_in ++ [0; 55296]) in
  P true true (repeat (Some 7) 4) 4 IDN2_OK (map Some [98; 252; 99; 104]) 9 /\ P true true (repeat None 10) 10 IDN2_OK (map Some buecher_u ++ [None]) 9 /\
  P false true [] 4 IDN2_OK [] 9 /\ P true false [None] 4 IDN2_OK [None] 4.
Proof.
  split; [exact g_of_is|]. destruct buecher_is as (UZ & T & UN). split; [exact UZ|]. split; [exact T|]. split; [exact UN|]. intros P.
  assert (LL : zlen (buecher_in ++ [0; 55296]) < 100000000000000000) by (vm_compute; reflexivity).
  split; [|split; [|split] ].
  - apply (t44_ok g_of g_of_is _ _ _ _ true true (repeat (Some 7) 4) 4 LL UZ T UN); [unfold two64; lia|intros _ _; vm_compute; discriminate].
  - apply (t44_ok g_of g_of_is _ _ _ _ true true (repeat None 10) 10 LL UZ T UN); [unfold two64; lia|intros _ _; vm_compute; discriminate].
  - apply (t44_ok g_of g_of_is _ _ _ _ false true [] 4 LL UZ T UN); [unfold two64; lia|intros Q; discriminate Q].
  - apply (t44_ok g_of g_of_is _ _ _ _ true false [None] 4 LL UZ T UN); [unfold two64; lia|intros _ Q; discriminate Q].
Qed.
Lemma case_44_code : until_zero [55296] [55296] /\ text_44i g_of [55296] true true [None] 1 IDN2_ENCODING_ERROR [None] 1 /\ text_44i g_of (repeat 97 64) true true [Some 5] 1 IDN2_TOO_BIG_LABEL [Some 5] 1.
Proof.
  assert (UZ : until_zero [55296] [55296]) by (split; [cbn; lia|left; reflexivity]). split; [exact UZ|]. split.
  - apply (t44_code g_of g_of_is [55296] [55296] IDN2_ENCODING_ERROR true true [None] 1); [vm_compute; reflexivity|exact UZ|]. left. split; [|reflexivity]. intros (b & T). apply u32_to_u8_iff in T. discriminate T.
  - apply (t44_code g_of g_of_is (repeat 97 64) (repeat 97 64) IDN2_TOO_BIG_LABEL true true [Some 5] 1); [vm_compute; reflexivity|split; [cbn; lia|left; reflexivity]|]. right. exists (repeat 97 64). split; [apply u32_to_u8_iff; reflexivity|].
    apply (UniRefusal.unicode_fail (repeat 97 64) IDN2_TOO_BIG_LABEL long_c); [vm_compute; reflexivity|vm_compute; reflexivity].
Qed.
