(** The functions around idn2_to_unicode_8z4z: the text returns what the specifications ask for. *)
From Coq Require Import String.
From Verif Require Import Base PunyBase Uenv DataTypes SpecUtf8 SpecLookup SpecUnicode SpecUniRefusal Utf8 Utf8Proofs Lookup Api DecodeProofs ApiProofs
  CLang CLogic CLeaf CUnicode CUni SpecCPuny SpecCRegister SpecCUnicode SpecCWrap SpecCUni CUnicodeTop CRegisterTop CWrapRun CWrapTop CWrapMeet CUniRun.
Local Open Scope string_scope.
Local Open Scope list_scope.
Local Open Scope Z_scope.
Arguments calls : simpl never.
Arguments types : simpl never.
Arguments uni_program : simpl never.

Lemma ch8 : char_type U8. Proof. right. reflexivity. Qed.
Section Top.
  Variables u4 u8 ul : list Z -> Z + list Z.
  Variables from to : list Z -> option (list Z).
  Notation P := (uni_program u4 u8 ul from to).
  Lemma un_of_runs : forall f args mem v mem' st, f_ret f = I32 -> runs (types P) (calls P 0) (f_body f) (mkst (declare f args) mem) (Ret (I32, v) st) -> arrs st = mem' ->
    returns (fun n => run P f 0 n args mem) (v, mem').
  Proof. intros f args mem v mem' st RT (m & E & _) A. exists m. intros n N. unfold run. rewrite (runs_at _ _ (un_mono u4 u8 ul from to) _ _ _ _ E ltac:(discriminate) n N). cbn [fst snd]. rewrite RT, A. reflexivity. Qed.
  Lemma un_fun : forall f args mem v1 m1 v2 m2, returns (fun n => run P f 0 n args mem) (v1, m1) -> returns (fun n => run P f 0 n args mem) (v2, m2) -> v1 = v2 /\ m1 = m2.
  Proof. intros f args mem v1 m1 v2 m2 A B. destruct A as (i & A), B as (j & B). specialize (A (i + j)%nat ltac:(lia)). specialize (B (i + j)%nat ltac:(lia)). rewrite A in B. apply (f_equal (fun r => match r with Val x => x | _ => (0, []) end)) in B. pose proof B as E. split; [exact (f_equal fst E)|exact (f_equal snd E)]. Qed.
  Hypothesis U4 : unicode_is u4.
  Lemma c_no0 : forall s, c_string s -> ~ In 0 s. Proof. intros s C Q. apply (proj1 (Forall_forall _ _) C) in Q. lia. Qed.
  Lemma u4_name : forall s d, c_string s -> zlen s < 4611686018427387904 -> (u4 s = inr d <-> unicode_name s d).
  Proof.
    intros s d C L. rewrite <- (text_ok U8 s d ch8 C L). split; [intros <-; now apply U4|]. intros T. destruct (text_exists U8 s ch8 C L) as (r & _ & H). rewrite (H _ T). apply H. now apply U4.
  Qed.
  Lemma u4_code : forall s rc, c_string s -> zlen s < 4611686018427387904 -> (u4 s = inl rc <-> unicode_refused s rc).
  Proof.
    intros s rc C L. rewrite <- (text_code U8 s rc ch8 C L). split; [intros <-; now apply U4|]. intros T. destruct (text_exists U8 s ch8 C L) as (r & _ & H). rewrite (H _ T). apply H. now apply U4.
  Qed.
  Lemma u4_good : forall s, c_string s -> zlen s < 4611686018427387904 -> match u4 s with inl rc => rc <> 0 | inr d => ~ In 0 d /\ zlen d <= 255 end.
  Proof.
    intros s C L. pose proof (U4 s C L) as T. pose proof (u4_name s) as N. destruct (u4 s) as [rc|d].
    - exact (proj1 (T (repeat None 63) eq_refl)).
    - specialize (proj1 (N d C L) eq_refl) as UN. split; [|destruct UN as (ls & rs & _ & _ & _ & Q); exact Q]. apply u32_no0. apply (unicode_u32 s d C); [unfold two64; lia|]. apply unicode_iff; [exact C|unfold two64; lia|exact UN].
  Qed.
  (** * idn2_to_unicode_4z4z *)
  Lemma utf8_c : forall l s, ~ In 0 l -> zlen l < 100000000000000000 -> u32_to_u8 l = Some s -> c_string s /\ zlen s < 4611686018427387904.
  Proof. intros l s N L E. split; [apply (u32_c_string l s N); now apply u32_to_u8_iff|]. pose proof (CostLabel.u32_to_u8_len _ _ E). lia. Qed.
  Lemma a_iff : forall l, ~ In 0 l -> zlen l < 100000000000000000 -> forall r, text_4z4z u4 u8 ul from to l r <-> a_result u4 l = r.
  Proof.
    intros l N LL r.
    assert (GV : forall s, u32_to_u8 l = Some s -> match u4 s with inl rc => rc <> 0 | inr d => ~ In 0 d /\ zlen d <= 255 end) by (intros s E; destruct (utf8_c l s N LL E) as (C & L); now apply u4_good).
    assert (T : text_4z4z u4 u8 ul from to l (a_result u4 l)).
    { split. { unfold a_result. destruct (u32_to_u8 l) as [s|] eqn:E; [|cbn; unfold IDN2_ENCODING_ERROR; lia]. specialize (GV s eq_refl). destruct (u4 s); [exact GV|exact Logic.I]. }
      intros has_ rest i8 o LU RM. destruct (a_runs u4 u8 ul from to has_ l rest N ltac:(lia)) with (i8 := i8) (o := o) as (st & u' & RR & AR); [|exact LU|exact RM|exists u'; eapply un_of_runs; [reflexivity|exact RR|exact AR] ].
      intros s E. specialize (GV s E). unfold given. destruct (u4 s); [exact GV|lia]. }
    split; [|intros <-; exact T]. intros H. set (r1 := a_result u4 l) in *. destruct T as (P1 & A), H as (P2 & B). destruct (enough_room r1 r) as (R1 & R2). set (nm := repeat (@None Z) (enough r1 r)) in *.
    set (u := repeat (@None Z) (4 * (length l + 1))). assert (LU : 4 * (zlen l + 1) <= zlen u) by (unfold u; rewrite zlen_none; unfold zlen; lia).
    destruct (A true [] u nm LU R1) as (u1 & A1), (B true [] u nm LU R2) as (u2 & B1). destruct (un_fun _ _ _ _ _ _ _ A1 B1) as (C & M). apply (same_result _ _ (enough r1 r) P1 P2 C). exact (f_equal (fun m => match m with [_; _; (_, (_, a))] => a | _ => [] end) M).
  Qed.
  Lemma a_exists : forall l, ~ In 0 l -> zlen l < 100000000000000000 -> exists r, text_4z4z u4 u8 ul from to l r /\ forall r', text_4z4z u4 u8 ul from to l r' -> r' = r.
  Proof. intros l N LL. pose proof (a_iff l N LL) as H. eexists. split; [apply H; reflexivity|]. intros r' T. apply H in T. now symmetry. Qed.
  Lemma a_name : forall l d, ~ In 0 l -> zlen l < 100000000000000000 -> (text_4z4z u4 u8 ul from to l (inr d) <-> exists b, utf8 l b /\ unicode_name b d).
  Proof.
    intros l d N LL. rewrite (a_iff l N LL). unfold a_result. destruct (u32_to_u8 l) as [s|] eqn:E.
    - assert (T : utf8 l s) by now apply u32_to_u8_iff. destruct (utf8_c l s N LL E) as (C & L). rewrite (u4_name s d C L). split; [eauto|]. intros (b & TB & H). rewrite (utf8_inj _ _ _ T TB). exact H.
    - split; [discriminate|]. intros (b & TB & _). apply u32_to_u8_iff in TB. rewrite E in TB. discriminate TB.
  Qed.
  Lemma a_code : forall l rc, ~ In 0 l -> zlen l < 100000000000000000 -> (text_4z4z u4 u8 ul from to l (inl rc) <-> (~ exists b, utf8 l b) /\ rc = IDN2_ENCODING_ERROR \/ exists b, utf8 l b /\ unicode_refused b rc).
  Proof.
    intros l rc N LL. rewrite (a_iff l N LL). unfold a_result. destruct (u32_to_u8 l) as [s|] eqn:E.
    - assert (T : utf8 l s) by now apply u32_to_u8_iff. destruct (utf8_c l s N LL E) as (C & L). rewrite (u4_code s rc C L). split; [eauto|]. intros [(X & _)|(b & TB & H)]; [exfalso; eauto|]. rewrite (utf8_inj _ _ _ T TB). exact H.
    - assert (X : ~ exists b, utf8 l b) by (intros (b & TB); apply u32_to_u8_iff in TB; rewrite E in TB; discriminate TB). split; [intros H; left; injection H as <-; auto|]. intros [(_ & ->)|(b & TB & _)]; [reflexivity|exfalso; eauto].
  Qed.
  (** * idn2_to_unicode_8z8z *)
  Lemma b_good : forall s, c_string s -> zlen s < 4611686018427387904 -> match b_result u4 s with inl rc => rc <> 0 | inr b => ~ In 0 b /\ zlen b <= 1020 end.
  Proof.
    intros s C L. pose proof (u4_good s C L) as G. unfold b_result. destruct (u4 s) as [rc|d]; [exact G|]. destruct G as (N & LD). destruct (u32_to_u8 d) as [b|] eqn:E; [|unfold IDN2_ENCODING_ERROR; lia]. split; [|pose proof (CostLabel.u32_to_u8_len _ _ E); lia].
    apply c_no0. apply (u32_c_string d b N). now apply u32_to_u8_iff.
  Qed.
  Lemma b_iff : forall s, c_string s -> zlen s < 4611686018427387904 -> forall r, text_8z8z u4 u8 ul from to s r <-> b_result u4 s = r.
  Proof.
    intros s C L r. pose proof (b_good s C L) as BG.
    assert (T : text_8z8z u4 u8 ul from to s (b_result u4 s)).
    { split; [destruct (b_result u4 s); [exact BG|exact Logic.I]|]. intros has_ rest o32 o8 o L3 L8 RM. destruct (b_runs u4 u8 ul from to has_ s rest (c_no0 s C) (u4_good s C L) o32 o8 o L3 L8 RM) as (st & p' & q' & RR & AR). exists p', q'. eapply un_of_runs; [reflexivity|exact RR|exact AR]. }
    split; [|intros <-; exact T]. intros H. set (r1 := b_result u4 s) in *. destruct T as (P1 & A), H as (P2 & B). destruct (enough_room r1 r) as (R1 & R2). set (nm := repeat (@None Z) (enough r1 r)) in *.
    assert (L3 : 256 <= zlen (repeat (@None Z) 256)) by (rewrite zlen_none; lia). assert (L8 : 1024 <= zlen (repeat (@None Z) 1024)) by (rewrite zlen_none; lia).
    destruct (A true [] _ _ nm L3 L8 R1) as (u1 & v1 & A1), (B true [] _ _ nm L3 L8 R2) as (u2 & v2 & B1). destruct (un_fun _ _ _ _ _ _ _ A1 B1) as (Q & M). apply (same_result _ _ (enough r1 r) P1 P2 Q). exact (f_equal (fun m => match m with [_; _; _; (_, (_, a))] => a | _ => [] end) M).
  Qed.
  Lemma b_exists : forall s, c_string s -> zlen s < 4611686018427387904 -> exists r, text_8z8z u4 u8 ul from to s r /\ forall r', text_8z8z u4 u8 ul from to s r' -> r' = r.
  Proof. intros s C L. pose proof (b_iff s C L) as H. eexists. split; [apply H; reflexivity|]. intros r' T. apply H in T. now symmetry. Qed.
  Lemma b_means : forall s b, c_string s -> zlen s < 4611686018427387904 -> (b_result u4 s = inr b <-> exists d, unicode_name s d /\ utf8 d b).
  Proof.
    intros s b C L. pose proof (u4_name s) as N. unfold b_result. destruct (u4 s) as [rc|d].
    - split; [discriminate|]. intros (d & H & _). apply N in H; [discriminate H|exact C|exact L].
    - assert (UN : unicode_name s d) by (now apply N). split.
      + intros H. exists d. split; [exact UN|]. destruct (u32_to_u8 d) as [x|] eqn:E; [|discriminate H]. injection H as <-. now apply u32_to_u8_iff.
      + intros (d' & H & T). apply N in H; [|exact C|exact L]. injection H as <-. apply u32_to_u8_iff in T. rewrite T. reflexivity.
  Qed.
  Lemma b_fails : forall s rc, c_string s -> zlen s < 4611686018427387904 -> (b_result u4 s = inl rc <-> unicode_refused s rc \/ exists d, unicode_name s d /\ (~ exists b, utf8 d b) /\ rc = IDN2_ENCODING_ERROR).
  Proof.
    intros s rc C L. pose proof (u4_name s) as N. pose proof (u4_code s rc C L) as NC. unfold b_result. destruct (u4 s) as [e|d].
    - rewrite <- NC. split; [intros H; left; exact H|]. intros [H|(d & H & _)]; [exact H|]. apply N in H; [discriminate H|exact C|exact L].
    - assert (UN : unicode_name s d) by (now apply N). rewrite <- NC. split.
      + intros H. right. exists d. split; [exact UN|]. destruct (u32_to_u8 d) as [x|] eqn:E; [discriminate H|]. injection H as <-. split; [|reflexivity]. intros (b & T). apply u32_to_u8_iff in T. rewrite E in T. discriminate T.
      + intros [H|(d' & H & X & ->)]; [discriminate H|]. apply N in H; [|exact C|exact L]. injection H as <-. destruct (u32_to_u8 d) as [x|] eqn:E; [|reflexivity]. exfalso. apply X. exists x. now apply u32_to_u8_iff.
  Qed.
  Lemma b_name : forall s b, c_string s -> zlen s < 4611686018427387904 -> (text_8z8z u4 u8 ul from to s (inr b) <-> exists d, unicode_name s d /\ utf8 d b).
  Proof. intros s b C L. rewrite (b_iff s C L). now apply b_means. Qed.
  Lemma b_code : forall s rc, c_string s -> zlen s < 4611686018427387904 -> (text_8z8z u4 u8 ul from to s (inl rc) <-> unicode_refused s rc \/ exists d, unicode_name s d /\ (~ exists b, utf8 d b) /\ rc = IDN2_ENCODING_ERROR).
  Proof. intros s rc C L. rewrite (b_iff s C L). now apply b_fails. Qed.
  (** * idn2_to_unicode_8zlz *)
  Hypothesis U8 : forall s, c_string s -> zlen s < 4611686018427387904 -> text_8z8z u4 u8 ul from to s (u8 s).
  Hypothesis TO : to_fits to.
  Lemma u8_eq : forall s, c_string s -> zlen s < 4611686018427387904 -> u8 s = b_result u4 s.
  Proof. intros s C L. symmetry. apply b_iff; auto. Qed.
  Lemma c_good : forall s, c_string s -> zlen s < 4611686018427387904 -> match c_result u8 to s with inl rc => rc <> 0 | inr x => zlen x < 4611686018427387904 end.
  Proof.
    intros s C L. pose proof (b_good s C L) as G. unfold c_result. rewrite (u8_eq s C L). destruct (b_result u4 s) as [rc|b]; [exact G|]. destruct (to b) as [x|] eqn:E; [exact (TO _ _ E)|unfold IDN2_ENCODING_ERROR; lia].
  Qed.
  Lemma c_iff : forall s, c_string s -> zlen s < 4611686018427387904 -> forall r, text_8zlz u4 u8 ul from to s r <-> c_result u8 to s = r.
  Proof.
    intros s C L r. pose proof (c_good s C L) as CG.
    assert (T : text_8zlz u4 u8 ul from to s (c_result u8 to s)).
    { split; [destruct (c_result u8 to s); [exact CG|exact Logic.I]|]. intros has_ rest o8 o L8 RM. destruct (c_runs u4 u8 ul from to has_ s rest (c_no0 s C)) with (o8 := o8) (o := o) as (st & q' & RR & AR); [|exact L8|exact RM|exists q'; eapply un_of_runs; [reflexivity|exact RR|exact AR] ].
      rewrite (u8_eq s C L). pose proof (b_good s C L) as G. destruct (b_result u4 s) as [rc|b]; [exact G|]. destruct G as (G1 & G2). split; [exact G1|]. split; [exact G2|]. apply TO. }
    split; [|intros <-; exact T]. intros H. set (r1 := c_result u8 to s) in *. destruct T as (P1 & A), H as (P2 & B). destruct (enough_room r1 r) as (R1 & R2). set (nm := repeat (@None Z) (enough r1 r)) in *.
    assert (L8 : 1024 <= zlen (repeat (@None Z) 1024)) by (rewrite zlen_none; lia).
    destruct (A true [] _ nm L8 R1) as (u1 & A1), (B true [] _ nm L8 R2) as (u2 & B1). destruct (un_fun _ _ _ _ _ _ _ A1 B1) as (Q & M). apply (same_result _ _ (enough r1 r) P1 P2 Q). exact (f_equal (fun m => match m with [_; _; (_, (_, a))] => a | _ => [] end) M).
  Qed.
  Lemma c_exists : forall s, c_string s -> zlen s < 4611686018427387904 -> exists r, text_8zlz u4 u8 ul from to s r /\ forall r', text_8zlz u4 u8 ul from to s r' -> r' = r.
  Proof. intros s C L. pose proof (c_iff s C L) as H. eexists. split; [apply H; reflexivity|]. intros r' T. apply H in T. now symmetry. Qed.
  Lemma c_means : forall s x, c_string s -> zlen s < 4611686018427387904 -> (c_result u8 to s = inr x <-> exists d b, unicode_name s d /\ utf8 d b /\ to b = Some x).
  Proof.
    intros s x C L. pose proof (fun b => b_means s b C L) as BM. unfold c_result. rewrite (u8_eq s C L). destruct (b_result u4 s) as [rc|b].
    - split; [discriminate|]. intros (d & b & H & T & _). assert (Q : inl rc = inr b) by (apply BM; eauto). discriminate Q.
    - split.
      + intros H. destruct (proj1 (BM b) eq_refl) as (d & UN & T). exists d, b. split; [exact UN|]. split; [exact T|]. destruct (to b); [|discriminate H]. injection H as ->. reflexivity.
      + intros (d & b' & H & T & E). assert (Q : inr b = inr b') by (apply (BM b'); eauto). injection Q as ->. rewrite E. reflexivity.
  Qed.
  Lemma c_fails : forall s rc, c_string s -> zlen s < 4611686018427387904 -> (c_result u8 to s = inl rc <-> unicode_refused s rc \/ exists d, unicode_name s d /\ (forall b, utf8 d b -> to b = None) /\ rc = IDN2_ENCODING_ERROR).
  Proof.
    intros s rc C L. pose proof (fun b => b_means s b C L) as BM. pose proof (b_fails s) as BF. pose proof (u4_name s) as N. unfold c_result. rewrite (u8_eq s C L). destruct (b_result u4 s) as [e|b].
    - split.
      + intros H. injection H as <-. destruct (proj1 (BF e C L) eq_refl) as [H|(d & UN & X & Q)]; [left; exact H|]. right. exists d. split; [exact UN|]. split; [|exact Q]. intros b T. exfalso. eauto.
      + intros [H|(d & UN & X & ->)].
        * assert (Q : @inl Z (list Z) e = inl rc) by (apply (BF rc C L); left; exact H). exact Q.
        * destruct (u32_to_u8 d) as [b|] eqn:E; [assert (Q : inl e = inr b) by (apply BM; exists d; split; [exact UN|now apply u32_to_u8_iff]); discriminate Q|].
          apply (BF IDN2_ENCODING_ERROR C L). right. exists d. split; [exact UN|]. split; [|reflexivity]. intros (b & T). apply u32_to_u8_iff in T. rewrite E in T. discriminate T.
    - destruct (proj1 (BM b) eq_refl) as (d & UN & T). split.
      + intros H. right. exists d. split; [exact UN|]. destruct (to b) eqn:E; [discriminate H|]. injection H as <-. split; [|reflexivity]. intros b' T'. rewrite <- (utf8_inj _ _ _ T T'). exact E.
      + intros [H|(d' & UN' & X & ->)].
        * assert (Q : @inr Z (list Z) b = inl rc) by (apply (BF rc C L); left; exact H). discriminate Q.
        * apply N in UN; [|exact C|exact L]. apply N in UN'; [|exact C|exact L]. assert (d = d') as <- by congruence. rewrite (X b T). reflexivity.
  Qed.
  Lemma c_name : forall s x, c_string s -> zlen s < 4611686018427387904 -> (text_8zlz u4 u8 ul from to s (inr x) <-> exists d b, unicode_name s d /\ utf8 d b /\ to b = Some x).
  Proof. intros s x C L. rewrite (c_iff s C L). now apply c_means. Qed.
  Lemma c_code : forall s rc, c_string s -> zlen s < 4611686018427387904 -> (text_8zlz u4 u8 ul from to s (inl rc) <-> unicode_refused s rc \/ exists d, unicode_name s d /\ (forall b, utf8 d b -> to b = None) /\ rc = IDN2_ENCODING_ERROR).
  Proof. intros s rc C L. rewrite (c_iff s C L). now apply c_fails. Qed.
  (** * idn2_to_unicode_lzlz *)
  Hypothesis UL : forall s, c_string s -> zlen s < 4611686018427387904 -> text_8zlz u4 u8 ul from to s (ul s).
  Lemma ul_eq : forall s, c_string s -> zlen s < 4611686018427387904 -> ul s = c_result u8 to s.
  Proof. intros s C L. symmetry. apply c_iff; auto. Qed.
  Lemma d_iff : forall s, ~ In 0 s -> (forall c, from s = Some c -> c_string c /\ zlen c < 4611686018427387904) -> forall r, text_lzlz u4 u8 ul from to s r <-> d_result ul from s = r.
  Proof.
    intros s N FC r.
    assert (GV : forall c, from s = Some c -> match ul c with inl rc => rc <> 0 | inr x => zlen x < 4611686018427387904 end) by (intros c E; destruct (FC c E) as (C & L); rewrite (ul_eq c C L); now apply c_good).
    assert (T : text_lzlz u4 u8 ul from to s (d_result ul from s)).
    { split. { unfold d_result. destruct (from s) as [c|] eqn:E; [|cbn; unfold IDN2_ICONV_FAIL; lia]. specialize (GV c eq_refl). destruct (ul c); [exact GV|exact Logic.I]. }
      intros has_ rest i8 o LU RM. destruct (d_runs u4 u8 ul from to has_ s rest N i8 o) as (st & u' & RR & AR); [|exact RM|exists u'; eapply un_of_runs; [reflexivity|exact RR|exact AR] ].
      intros c E. destruct (FC c E) as (C & L). split; [now apply c_no0|]. split; [exact L|]. split; [now apply LU|]. exact (GV c E). }
    split; [|intros <-; exact T]. intros H. set (r1 := d_result ul from s) in *. destruct T as (P1 & A), H as (P2 & B). destruct (enough_room r1 r) as (R1 & R2). set (nm := repeat (@None Z) (enough r1 r)) in *.
    set (u := repeat (@None Z) (S (match from s with Some b => length b | None => 0 end))). assert (LU : forall b, from s = Some b -> zlen b < zlen u) by (intros b E; unfold u; rewrite zlen_none, E; unfold zlen; lia).
    destruct (A true [] u nm LU R1) as (u1 & A1), (B true [] u nm LU R2) as (u2 & B1). destruct (un_fun _ _ _ _ _ _ _ A1 B1) as (C & M). apply (same_result _ _ (enough r1 r) P1 P2 C). exact (f_equal (fun m => match m with [_; _; (_, (_, a))] => a | _ => [] end) M).
  Qed.
  Lemma d_exists : forall s, ~ In 0 s -> (forall c, from s = Some c -> c_string c /\ zlen c < 4611686018427387904) -> exists r, text_lzlz u4 u8 ul from to s r /\ forall r', text_lzlz u4 u8 ul from to s r' -> r' = r.
  Proof. intros s N FC. pose proof (d_iff s N FC) as H. eexists. split; [apply H; reflexivity|]. intros r' T. apply H in T. now symmetry. Qed.
  Lemma d_name : forall s x, ~ In 0 s -> (forall c, from s = Some c -> c_string c /\ zlen c < 4611686018427387904) ->
    (text_lzlz u4 u8 ul from to s (inr x) <-> exists c d b, from s = Some c /\ unicode_name c d /\ utf8 d b /\ to b = Some x).
  Proof.
    intros s x N FC. rewrite (d_iff s N FC). unfold d_result. destruct (from s) as [c|] eqn:E.
    - destruct (FC c eq_refl) as (C & L). rewrite (ul_eq c C L), (c_means c x C L). split; [intros (d & b & H); exists c, d, b; split; [reflexivity|exact H]|]. intros (c' & d & b & Q & H). injection Q as <-. eauto.
    - split; [discriminate|]. intros (c & d & b & Q & _). discriminate Q.
  Qed.
  Lemma d_code : forall s rc, ~ In 0 s -> (forall c, from s = Some c -> c_string c /\ zlen c < 4611686018427387904) ->
    (text_lzlz u4 u8 ul from to s (inl rc) <-> from s = None /\ rc = IDN2_ICONV_FAIL \/ exists c, from s = Some c /\ (unicode_refused c rc \/ exists d, unicode_name c d /\ (forall b, utf8 d b -> to b = None) /\ rc = IDN2_ENCODING_ERROR)).
  Proof.
    intros s rc N FC. rewrite (d_iff s N FC). unfold d_result. destruct (from s) as [c|] eqn:E.
    - destruct (FC c eq_refl) as (C & L). rewrite (ul_eq c C L), (c_fails c rc C L). split; [intros H; right; exists c; auto|]. intros [(Q & _)|(c' & Q & H)]; [discriminate Q|]. injection Q as <-. exact H.
    - split; [intros H; left; injection H as <-; auto|]. intros [(_ & ->)|(c & Q & _)]; [reflexivity|discriminate Q].
  Qed.
End Top.

(** There are such functions. *)
Definition u4_of (s : list Z) : Z + list Z := match unicode s with Ok d => inr d | Fail rc => inl rc | _ => inl IDN2_MALLOC end.
Lemma u4_of_is : unicode_is u4_of.
Proof.
  intros s C L. unfold u4_of. pose proof (text_model U8 s ch8 C L) as T. destruct (unicode s); try contradiction; exact T.
Qed.
Lemma have_8z8z : forall u8 ul from to s, c_string s -> zlen s < 4611686018427387904 -> text_8z8z u4_of u8 ul from to s (b_result u4_of s).
Proof. intros u8 ul from to s C L. apply (b_iff u4_of u8 ul from to u4_of_is s C L). reflexivity. Qed.
Lemma have_8zlz : forall ul from to, to_fits to -> forall s, c_string s -> zlen s < 4611686018427387904 ->
  text_8zlz u4_of (b_result u4_of) ul from to s (c_result (b_result u4_of) to s).
Proof. intros ul from to TO s C L. apply (c_iff u4_of (b_result u4_of) ul from to u4_of_is (have_8z8z _ ul from to) TO s C L). reflexivity. Qed.
(** One choice of the three serves all four functions. *)
Lemma have_uni : forall from to, to_fits to -> exists u4 u8 ul, uni_has u4 u8 ul from to.
Proof.
  intros from to TO. exists u4_of, (b_result u4_of), (c_result (b_result u4_of) to). split; [exact u4_of_is|]. split; [apply have_8z8z|now apply have_8zlz].
Qed.
Lemma top_8zlz_returns : forall u4 u8 ul from to, to_fits to -> uni_has u4 u8 ul from to -> forall s, c_string s -> zlen s < 4611686018427387904 -> exists r, text_8zlz u4 u8 ul from to s r /\ forall r', text_8zlz u4 u8 ul from to s r' -> r' = r.
Proof. intros u4 u8 ul from to TO (A & B & _). exact (c_exists u4 u8 ul from to A B TO). Qed.
Lemma top_8zlz : forall u4 u8 ul from to, to_fits to -> uni_has u4 u8 ul from to -> forall s x, c_string s -> zlen s < 4611686018427387904 ->
  (text_8zlz u4 u8 ul from to s (inr x) <-> exists d b, unicode_name s d /\ utf8 d b /\ to b = Some x).
Proof. intros u4 u8 ul from to TO (A & B & _). exact (c_name u4 u8 ul from to A B TO). Qed.
Lemma top_8zlz_code : forall u4 u8 ul from to, to_fits to -> uni_has u4 u8 ul from to -> forall s rc, c_string s -> zlen s < 4611686018427387904 ->
  (text_8zlz u4 u8 ul from to s (inl rc) <-> unicode_refused s rc \/ exists d, unicode_name s d /\ (forall b, utf8 d b -> to b = None) /\ rc = IDN2_ENCODING_ERROR).
Proof. intros u4 u8 ul from to TO (A & B & _). exact (c_code u4 u8 ul from to A B TO). Qed.
Lemma top_lzlz_returns : forall u4 u8 ul from to, to_fits to -> uni_has u4 u8 ul from to -> forall s, ~ In 0 s -> (forall c, from s = Some c -> c_string c /\ zlen c < 4611686018427387904) ->
  exists r, text_lzlz u4 u8 ul from to s r /\ forall r', text_lzlz u4 u8 ul from to s r' -> r' = r.
Proof. intros u4 u8 ul from to TO (A & B & C). exact (d_exists u4 u8 ul from to A B TO C). Qed.
Lemma top_lzlz : forall u4 u8 ul from to, to_fits to -> uni_has u4 u8 ul from to -> forall s x, ~ In 0 s -> (forall c, from s = Some c -> c_string c /\ zlen c < 4611686018427387904) ->
  (text_lzlz u4 u8 ul from to s (inr x) <-> exists c d b, from s = Some c /\ unicode_name c d /\ utf8 d b /\ to b = Some x).
Proof. intros u4 u8 ul from to TO (A & B & C). exact (d_name u4 u8 ul from to A B TO C). Qed.
Lemma top_lzlz_code : forall u4 u8 ul from to, to_fits to -> uni_has u4 u8 ul from to -> forall s rc, ~ In 0 s -> (forall c, from s = Some c -> c_string c /\ zlen c < 4611686018427387904) ->
  (text_lzlz u4 u8 ul from to s (inl rc) <-> from s = None /\ rc = IDN2_ICONV_FAIL \/
    exists c, from s = Some c /\ (unicode_refused c rc \/ exists d, unicode_name c d /\ (forall b, utf8 d b -> to b = None) /\ rc = IDN2_ENCODING_ERROR)).
Proof. intros u4 u8 ul from to TO (A & B & C). exact (d_code u4 u8 ul from to A B TO C). Qed.
