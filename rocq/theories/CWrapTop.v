(** The functions around idn2_lookup_u8: the text returns what the specifications ask for. *)
From Coq Require Import String.
From Verif Require Import Base PunyBase Uenv DataTypes SpecUtf8 SpecNfc SpecLookup SpecRefusal Utf8 Utf8Proofs Idna Lookup LookupTr46 LookupCodes LookupTop NonZero NfcProofs Api ApiProofs CostLabel
  CLang CLogic CLeaf CLookup CLookupTop CLookupCases CLabelText CWrap SpecCPuny SpecCLookup SpecCRegister SpecCWrap CRegisterTop CWrapRun.
Local Open Scope string_scope.
Local Open Scope list_scope.
Local Open Scope Z_scope.
Arguments calls : simpl never.
Arguments types : simpl never.
Arguments wrap_program : simpl never.

(** The same string, if the same array. *)
Lemma same_result : forall r1 r2 n, proper r1 -> proper r2 -> SpecCRegister.code_of r1 = SpecCRegister.code_of r2 -> inserted true r1 (repeat None n) = inserted true r2 (repeat None n) -> r1 = r2.
Proof.
  intros [e1|t1] [e2|t2] n P1 P2 C E; cbn [proper SpecCRegister.code_of inserted] in *; [congruence|contradiction|symmetry in C; contradiction|].
  apply (f_equal somes) in E. rewrite !somes_with in E. f_equal. apply app_inj_tail in E. apply E.
Qed.
Definition enough (r1 r2 : Z + list Z) : nat := S (match r1 with inr t => length t | _ => 0 end + match r2 with inr t => length t | _ => 0 end).
Lemma enough_room : forall r1 r2, room r1 (repeat None (enough r1 r2)) /\ room r2 (repeat None (enough r1 r2)).
Proof. intros [e1|t1] [e2|t2]; unfold room, enough, zlen; rewrite ?repeat_length; split; try exact Logic.I; lia. Qed.
Lemma zlen_none : forall n, zlen (repeat (@None Z) n) = Z.of_nat n. Proof. intros. unfold zlen. rewrite repeat_length. reflexivity. Qed.

Section Top.
  Variable U : uenv.
  Variables look four : list Z -> Z -> Z + list Z.
  Variable from : list Z -> option (list Z).
  Notation P := (wrap_program U look four from).
  Lemma wr_of_runs : forall f args mem v mem' st, f_ret f = I32 -> runs (types P) (calls P 0) (f_body f) (mkst (declare f args) mem) (Ret (I32, v) st) -> arrs st = mem' ->
    returns (fun n => run P f 0 n args mem) (v, mem').
  Proof. intros f args mem v mem' st RT (m & E & _) A. exists m. intros n N. unfold run. rewrite (runs_at _ _ (wr_mono U look four from) _ _ _ _ E ltac:(discriminate) n N). cbn [fst snd]. rewrite RT, A. reflexivity. Qed.
  Lemma wr_fun : forall f args mem v1 m1 v2 m2, returns (fun n => run P f 0 n args mem) (v1, m1) -> returns (fun n => run P f 0 n args mem) (v2, m2) -> v1 = v2 /\ m1 = m2.
  Proof. intros f args mem v1 m1 v2 m2 A B. destruct A as (i & A), B as (j & B). specialize (A (i + j)%nat ltac:(lia)). specialize (B (i + j)%nat ltac:(lia)). rewrite A in B. apply (f_equal (fun r => match r with Val x => x | _ => (0, []) end)) in B. pose proof B as E. split; [exact (f_equal fst E)|exact (f_equal snd E)]. Qed.

  (** * _idn2_u8_to_u32_nfc *)
  Lemma nfc_fun : forall nfc s r1 r2, nfc_text U look four from nfc s r1 -> nfc_text U look four from nfc s r2 -> r1 = r2.
  Proof.
    intros nfc s r1 r2 (P1 & A) (P2 & B).
    set (u := repeat (@None Z) (4 * length s + enough r1 r2)). assert (LU : 4 * zlen s <= zlen u) by (unfold u; rewrite zlen_none; unfold zlen; lia).
    destruct (A [] u u u None LU LU LU) as (p1 & t1 & A1), (B [] u u u None LU LU LU) as (p2 & t2 & B1). destruct (wr_fun _ _ _ _ _ _ _ A1 B1) as (C & M).
    assert (E : forall l n, zlen l <= Z.of_nat n -> exists m, in_front l (repeat None n) = map Some l ++ repeat None m).
    { intros l n _. unfold in_front. generalize (length l). intros k. assert (X : exists m, skipn k (repeat (@None Z) n) = repeat None m) by (revert n; induction k as [|k IH]; intros n; [exists n; reflexivity|]; destruct n; [exists O; reflexivity|apply IH]). destruct X as (m & ->). eauto. }
    assert (SM : forall l m, somes (map Some l ++ repeat None m) = l) by (induction l as [|c l IH]; intros m; [destruct m; reflexivity|cbn; rewrite IH; reflexivity]).
    pose proof (f_equal (fun m => match m with [_; _; _; (_, (_, a)); _] => somes a | _ => [] end) M) as Q. cbn beta iota in Q.
    destruct r1 as [e1|l1], r2 as [e2|l2]; cbn [proper SpecCRegister.code_of] in *; [congruence|contradiction|symmetry in C; contradiction|].
    destruct (E l1 (4 * length s + enough (inr l1) (inr l2))%nat) as (m1 & E1); [unfold enough, zlen; lia|]. destruct (E l2 (4 * length s + enough (inr l1) (inr l2))%nat) as (m2 & E2); [unfold enough, zlen; lia|].
    unfold u in Q. rewrite E1, E2, !SM in Q. congruence.
  Qed.
  Hypothesis FF : at_most_fourfold U.
  Lemma nfc_iff : forall nfc s, 4 * zlen s < 9223372036854775808 -> forall r, nfc_text U look four from nfc s r <-> u8_to_u32_nfc U s (negb (nfc =? 0)) = (match r with inr t => Ok t | inl rc => Fail rc end).
  Proof.
    intros nfc s LS r.
    assert (T : match u8_to_u32_nfc U s (negb (nfc =? 0)) with Ok t => nfc_text U look four from nfc s (inr t) | Fail rc => nfc_text U look four from nfc s (inl rc) | _ => False end).
    { pose proof (nz_u8_nfc U s (negb (nfc =? 0))) as NZ. pose proof (LookupProofs.u8_nfc_safe U s (negb (nfc =? 0))) as SF.
      pose proof (fun rest => n_all U look four from s rest nfc LS) as H.
      destruct (u8_to_u32_nfc U s (negb (nfc =? 0))) as [t|rc| |]; [| |destruct SF..].
      - split; [exact Logic.I|]. intros rest p tmp out n L1 L2 L3. destruct (H rest p tmp out n FF L1 L2 L3) as (st & p' & t' & RR & AR). exists p', t'. eapply wr_of_runs; [reflexivity|exact RR|exact AR].
      - split; [exact (NZ rc eq_refl)|]. intros rest p tmp out n L1 L2 L3. destruct (H rest p tmp out n FF L1 L2 L3) as (st & p' & t' & RR & AR). exists p', t'. eapply wr_of_runs; [reflexivity|exact RR|exact AR]. }
    split.
    - intros H. destruct (u8_to_u32_nfc U s (negb (nfc =? 0))) as [d|rc| |]; try contradiction; rewrite <- (nfc_fun _ _ _ _ T H); reflexivity.
    - intros E. rewrite E in T. destruct r; exact T.
  Qed.

  (** * lookup.c *)
  Variable lab : list Z -> Z -> Z + list Z.
  Hypothesis K : nfc_ok U.
  Hypothesis LI : label_is U lab.
  Hypothesis LK : lookup_is U lab look.
  Lemma look_model : forall s f, c_string s -> 32 * (zlen s + 1) < two64 -> 0 <= f < 2147483648 -> lookup_u8 U s f = match look s f with inr d => Ok d | inl rc => Fail rc end.
  Proof. intros s f C L F. pose proof (LK s f C L F) as H. destruct (whole_ok U lab K LI f s C L F) as (H1 & H2). destruct (look s f) as [rc|d]; [apply H2|apply H1]; exact H. Qed.
  Lemma look_good : forall s f, c_string s -> 32 * (zlen s + 1) < two64 -> 0 <= f < 2147483648 -> match look s f with inl rc => rc <> 0 | inr t => Forall (fun b => 0 < b < 128) t /\ zlen t <= 254 end.
  Proof.
    intros s f C L F. pose proof (look_model s f C L F) as E. destruct (look s f) as [rc|t]; [exact (nz_lookup U s f rc E)|]. apply lookup_shape in E; [|exact K|exact C|unfold two64 in *; lia]. destruct E as (A & _ & B). split; [exact A|]. destruct B as [B|(B & _)]; lia.
  Qed.
  Lemma look_is_fine : forall s f, c_string s -> 32 * (zlen s + 1) < two64 -> 0 <= f < 2147483648 -> look_fine (look s f).
  Proof. intros s f C L F. pose proof (look_good s f C L F) as H. unfold look_fine. destruct (look s f); [exact H|]. destruct H as (A & B). split; [|lia]. eapply Forall_impl; [|exact A]. cbn. intros; lia. Qed.
  Lemma conv_string : forall l s, zlen l < 100000000000000000 -> u32_to_u8 l = Some s -> c_string (upto0 s) /\ 32 * (zlen (upto0 s) + 1) < two64.
  Proof.
    intros l s LL E. pose proof (u32_to_u8_bytes _ _ E) as B. pose proof (u32_to_u8_len _ _ E) as LS. pose proof (upto0_zlen s) as L0. split; [|unfold two64; lia].
    apply Forall_forall. intros b I. pose proof (upto0_incl _ _ I) as J. pose proof (proj1 (Forall_forall _ _) B b J) as Q. cbn in Q. assert (b <> 0) by (intros ->; exact (upto0_no0 s I)). lia.
  Qed.
  Lemma conv_proper : forall l f, zlen l < 100000000000000000 -> 0 <= f < 2147483648 -> proper (conv_result look l f).
  Proof.
    intros l f LL F. unfold conv_result. destruct (u32_to_u8 l) as [s|] eqn:E; [|cbn; unfold IDN2_ENCODING_ERROR; lia]. destruct (conv_string l s LL E) as (C & L). pose proof (look_good _ f C L F) as H. destruct (look (upto0 s) f); [exact H|exact Logic.I].
  Qed.
  Lemma conv_fine : forall l f, zlen l < 100000000000000000 -> 0 <= f < 2147483648 -> forall s, u32_to_u8 l = Some s -> look_fine (look (upto0 s) f).
  Proof. intros l f LL F s E. destruct (conv_string l s LL E) as (C & L). now apply look_is_fine. Qed.

  Lemma text_4z_iff : forall f l, ~ In 0 l -> zlen l < 100000000000000000 -> 0 <= f < 2147483648 -> forall r, text_4z U look four from f l r <-> conv_result look l f = r.
  Proof.
    intros f l N0 LL F r.
    assert (T : text_4z U look four from f l (conv_result look l f)).
    { split; [now apply conv_proper|]. intros has_ rest u8 name LU RM. destruct (z_runs U look four from l f has_ rest ltac:(lia) (conv_fine l f LL F) u8 name N0 LU RM) as (st & u' & RR & AR). exists u'. eapply wr_of_runs; [reflexivity|exact RR|exact AR]. }
    split; [|intros <-; exact T]. intros H. set (r1 := conv_result look l f) in *. destruct T as (P1 & A), H as (P2 & B). destruct (enough_room r1 r) as (R1 & R2). set (nm := repeat (@None Z) (enough r1 r)) in *.
    set (u := repeat (@None Z) (4 * (length l + 1))). assert (LU : 4 * (zlen l + 1) <= zlen u) by (unfold u; rewrite zlen_none; unfold zlen; lia).
    destruct (A true [] u nm LU R1) as (u1 & A1), (B true [] u nm LU R2) as (u2 & B1). destruct (wr_fun _ _ _ _ _ _ _ A1 B1) as (C & M). apply (same_result _ _ (enough r1 r) P1 P2 C). exact (f_equal (fun m => match m with [_; _; (_, (_, a))] => a | _ => [] end) M).
  Qed.
  Lemma text_4i2_iff : forall f l, zlen l < 100000000000000000 -> 0 <= f < 2147483648 -> forall r, text_4i2 U look four from f l r <-> conv_result look l f = r.
  Proof.
    intros f l LL F r.
    assert (T : text_4i2 U look four from f l (conv_result look l f)).
    { split; [now apply conv_proper|]. intros has_ rest u32 u8 name L3 LU RM. destruct (i_runs U look four from l f has_ rest ltac:(lia) (conv_fine l f LL F) u32 u8 name L3 LU RM) as (st & v' & u' & RR & AR). exists v', u'. eapply wr_of_runs; [reflexivity|exact RR|exact AR]. }
    split; [|intros <-; exact T]. intros H. set (r1 := conv_result look l f) in *. destruct T as (P1 & A), H as (P2 & B). destruct (enough_room r1 r) as (R1 & R2). set (nm := repeat (@None Z) (enough r1 r)) in *.
    set (u := repeat (@None Z) (4 * (length l + 1))). assert (LU : 4 * (zlen l + 1) <= zlen u) by (unfold u; rewrite zlen_none; unfold zlen; lia).
    set (v := repeat (@None Z) (length l + 1)). assert (LV : zlen v = zlen l + 1) by (unfold v; rewrite zlen_none; unfold zlen; lia).
    destruct (A true [] v u nm LV LU R1) as (v1 & u1 & A1), (B true [] v u nm LV LU R2) as (v2 & u2 & B1). destruct (wr_fun _ _ _ _ _ _ _ A1 B1) as (C & M). apply (same_result _ _ (enough r1 r) P1 P2 C). exact (f_equal (fun m => match m with [_; _; _; (_, (_, a))] => a | _ => [] end) M).
  Qed.
  Lemma flag_or : forall f, 0 <= f < 2147483648 -> 0 <= Z.lor f IDN2_NFC_INPUT < 2147483648.
  Proof. intros f F. split; [apply Z.lor_nonneg; unfold IDN2_NFC_INPUT; lia|]. change 2147483648 with (2 ^ 31) in *. destruct (Z.eq_dec (Z.lor f IDN2_NFC_INPUT) 0) as [->|N]; [lia|]. apply Z.log2_lt_pow2; [assert (0 <= Z.lor f IDN2_NFC_INPUT) by (apply Z.lor_nonneg; unfold IDN2_NFC_INPUT; lia); lia|].
    rewrite Z.log2_lor by (unfold IDN2_NFC_INPUT; lia). apply Z.max_lub_lt; [|reflexivity]. destruct (Z.eq_dec f 0) as [->|N']; [reflexivity|]. apply Z.log2_lt_pow2; lia. Qed.
  Lemma ul_iff : forall f s, ~ In 0 s -> (forall b, from s = Some b -> c_string b /\ 32 * (zlen b + 1) < two64) -> 0 <= f < 2147483648 -> forall r, ul_text U look four from f s r <-> ul_result look from s f = r.
  Proof.
    intros f s N0 FB F r. pose proof (flag_or f F) as G.
    assert (T : ul_text U look four from f s (ul_result look from s f)).
    { split. { unfold ul_result. destruct (from s) as [b|]; [|cbn; unfold IDN2_ICONV_FAIL; lia]. destruct (FB b eq_refl) as (C & L). pose proof (look_good b _ C L G) as H. destruct (look b _); [exact H|exact Logic.I]. }
      intros has_ u8 name LU RM. destruct (ul_runs U look four from s f has_ N0 F u8 name) as (st & u' & RR & AR); [|exact RM|exists u'; eapply wr_of_runs; [reflexivity|exact RR|exact AR] ].
      intros b E. destruct (FB b E) as (C & L). split; [intros Q; apply (proj1 (Forall_forall _ _) C) in Q; lia|]. split; [unfold two64 in L; lia|]. split; [exact (LU b E)|now apply look_is_fine]. }
    split; [|intros <-; exact T]. intros H. set (r1 := ul_result look from s f) in *. destruct T as (P1 & A), H as (P2 & B). destruct (enough_room r1 r) as (R1 & R2). set (nm := repeat (@None Z) (enough r1 r)) in *.
    set (u := repeat (@None Z) (S (match from s with Some b => length b | None => 0 end))). assert (LU : forall b, from s = Some b -> zlen b < zlen u) by (intros b E; unfold u; rewrite zlen_none, E; unfold zlen; lia).
    destruct (A true u nm LU R1) as (u1 & A1), (B true u nm LU R2) as (u2 & B1). destruct (wr_fun _ _ _ _ _ _ _ A1 B1) as (C & M). apply (same_result _ _ (enough r1 r) P1 P2 C). exact (f_equal (fun m => match m with [_; _; (_, (_, a))] => a | _ => [] end) M).
  Qed.
End Top.
