(** label(): the text returns what the model returns, and what IDNA asks for. *)
From Coq Require Import String.
From Verif Require Import Base PunyBase Uenv SpecUtf8 SpecNfc SpecLookup SpecLabel SpecToAscii SpecRefusal Utf8 Utf8Proofs MapProofs Puny Idna Lookup LabelProofs LookupProofs LookupIdem LookupTr46 CostLabel NonZero
  ToAsciiProofs RefusalLabel RefusalProofs RefusalTop RefusalExamples CLang CLogic CLeaf CLookup SpecCPuny SpecCLookup CPunyTop CLookupName CLookupTop CLabelFun.
Local Open Scope string_scope.
Local Open Scope list_scope.
Local Open Scope Z_scope.
Arguments calls : simpl never.
Arguments types : simpl never.
Arguments lookup_program : simpl never.

Section Text.
  Variable U : uenv.
  Variable lab : list Z -> Z -> Z + list Z.
  Notation P := (lookup_program U lab).
  Notation rt := (types P).
  Notation cl := (calls P 2).
  Notation R := (runs rt cl).
  Variables (s : list Z) (f : Z).
  Hypothesis K : nfc_ok U.
  Hypothesis PS : plain_label s.
  Hypothesis LS : 4 * zlen s < two64.
  Hypothesis F : 0 <= f < 2147483648.
  Section Run.
    Variables dst lu sa pp : list (option Z).
    Hypothesis ZD : zlen dst = 63.
    Hypothesis ZL : zlen lu = 63.
    Hypothesis ZS : 252 <= zlen sa.
    Hypothesis ZP : 1008 + 4 * zlen s <= zlen pp.
    Notation S0 := (mkst (declare c_label [(U64, zlen s); (I32, f)]) (label_mem s dst 63 lu sa pp)).
    Lemma start : forall d o, R lb_main (ls s f (zlen s) None 0 None 0 None 0 63 None d 63 lu sa pp) o -> R (f_body c_label) (mkst (declare c_label [(U64, zlen s); (I32, f)]) (label_mem s d 63 lu sa pp)) o.
    Proof.
      intros d o H. pose proof (lf_mono U lab) as M.
      change (f_body c_label) with (SSeq (SExp (EAsg "allocated" (int 0))) (SSeq (SExp (EAsg "check_roundtrip" (int 0))) (SSeq (SExp (EAsg "srclen_org" (int 0))) (SSeq (SExp (EAsg "label32_len" (int 63))) lb_main)))).
      do 4 (eapply (runs_seq rt cl M); [eapply (runs_exp rt cl); exists O; cc; reflexivity|]). exact H.
    Qed.
    Lemma text_runs : match label U s 63 f with
      | Ok t => exists st rest lu' sa' pp', R (f_body c_label) S0 (Ret (I32, 0) st) /\ arrs st = label_mem s (map Some t ++ rest) (zlen t) lu' sa' pp'
      | Fail e => exists st, R (f_body c_label) S0 (Ret (I32, e) st) /\ keeps s st
      | _ => True
      end.
    Proof.
      pose proof (lf_mono U lab) as M. pose proof (nfc_length U K) as FF. pose proof (zlen_nonneg _ s) as S0'.
      destruct dst as [|a0 [|a1 [|a2 [|a3 r] ] ] ]; rewrite ?zlen_cons in ZD; change (zlen (@nil (option Z))) with 0 in ZD; try lia.
      assert (R59 : zlen r = 59) by lia.
      pose proof (ascii_eval U lab s f (a0 :: a1 :: a2 :: a3 :: r) lu sa pp None None None None) as AE. pose proof (cond_eval U lab s f F (a0 :: a1 :: a2 :: a3 :: r) lu sa pp None None None None) as CE.
      unfold label. destruct (ascii_p s) eqn:AS.
      - destruct (negb (has f IDN2_NO_ALABEL_ROUNDTRIP) && has_ace_prefix s) eqn:CD.
        + apply andb_true_iff in CD. destruct CD as (_ & AC). unfold LABEL_MAX.
          pose proof (ace_runs U lab s f LS (a0 :: a1 :: a2 :: a3 :: r) lu sa pp None None None None ZL ZS AC) as AR.
          assert (LQ : zlen (skipn 4 s) < two64). { unfold zlen. rewrite skipn_length. unfold zlen, two64 in *. lia. }
          destruct (puny_decode (skipn 4 s) 63 63) as [l|e| |] eqn:PD; cbn [bind]; [| |exact Logic.I..].
          2:{ destruct AR as (st & A & B). exists st. split; [|exact B]. apply start. change lb_main with (SSeq lb_head lb_tail). eapply (runs_seq_stop rt cl); [|exact Logic.I]. rewrite head_form. eapply (runs_if rt cl M); [exact AE|]. cbn [snd Z.eqb]. eapply (runs_if rt cl M); [exact CE|]. exact A. }
          destruct (u32_to_u8 l) as [x|] eqn:UX; cbn [Utf8.conv bind].
          2:{ destruct AR as (st & A & B). exists st. split; [|exact B]. apply start. change lb_main with (SSeq lb_head lb_tail). eapply (runs_seq_stop rt cl); [|exact Logic.I]. rewrite head_form. eapply (runs_if rt cl M); [exact AE|]. cbn [snd Z.eqb]. eapply (runs_if rt cl M); [exact CE|]. exact A. }
          destruct AR as (l32 & k' & lu' & rest & A).
          assert (HD : R lb_head (ls s f (zlen s) None 0 None 0 None 0 63 None (a0 :: a1 :: a2 :: a3 :: r) 63 lu sa pp) (Norm (ls s f (zlen x) None 1 (Some 0) 1 None (zlen s) l32 k' (a0 :: a1 :: a2 :: a3 :: r) 63 lu' (map Some x ++ rest) pp))).
          { rewrite head_form. eapply (runs_if rt cl M); [exact AE|]. cbn [snd Z.eqb]. eapply (runs_if rt cl M); [exact CE|]. exact A. }
          destruct (decoded _ _ PD LQ) as (L63 & _). pose proof (u32_to_u8_len l x UX) as LX. pose proof (decoded_label _ _ _ PD LQ UX) as DL.
          assert (XL : forall l', u8_to_u32 x = Some l' -> Forall scalar l' /\ ~ In 0 l' /\ ~ In 46 l').
          { intros l' E. assert (E2 : u8_to_u32 x = Some l). { apply u32_to_u8_iff in UX. apply u8_to_u32_iff; [exact (utf8_bytes _ _ UX)|exact UX]. } rewrite E2 in E. injection E as <-. exact DL. }
          pose proof (tail_runs U lab s f K FF PS LS F 1 1 (zlen s) x lu' (map Some x ++ rest) None (Some 0) None (or_intror eq_refl) (part_front x rest) ltac:(unfold two64; lia) XL l32 k' a0 a1 a2 a3 r pp R59 ltac:(lia) (or_introl (conj eq_refl eq_refl))) as TR.
          cbn [Z.eqb Pos.eqb] in TR. destruct (label_tail U x (Some s) 63 f) as [t|e| |]; [| |exact Logic.I..].
          * destruct TR as (st & rest' & lu2 & pp2 & A2 & B2). exists st, rest', lu2, (map Some x ++ rest), pp2. split; [|exact B2]. apply start. change lb_main with (SSeq lb_head lb_tail). eapply (runs_seq rt cl M); [exact HD|exact A2].
          * destruct TR as (st & A2 & B2). exists st. split; [|exact B2]. apply start. change lb_main with (SSeq lb_head lb_tail). eapply (runs_seq rt cl M); [exact HD|exact A2].
        + pose proof (copy_runs U lab s f LS (a0 :: a1 :: a2 :: a3 :: r) lu sa pp None None None None) as CR. specialize (CR ltac:(rewrite !zlen_cons; lia)).
          match type of CR with match ?q with _ => _ end => destruct q as [t|e| |] end; [| |exact Logic.I..].
          * destruct CR as (st & rest & A & B). exists st, rest, lu, sa, pp. split; [|exact B]. apply start. change lb_main with (SSeq lb_head lb_tail). eapply (runs_seq_stop rt cl); [|exact Logic.I]. rewrite head_form. eapply (runs_if rt cl M); [exact AE|]. cbn [snd Z.eqb]. eapply (runs_if rt cl M); [exact CE|]. exact A.
          * destruct CR as (st & A & B). exists st. split; [|exact B]. apply start. change lb_main with (SSeq lb_head lb_tail). eapply (runs_seq_stop rt cl); [|exact Logic.I]. rewrite head_form. eapply (runs_if rt cl M); [exact AE|]. cbn [snd Z.eqb]. eapply (runs_if rt cl M); [exact CE|]. exact A.
      - assert (HD : R lb_head (ls s f (zlen s) None 0 None 0 None 0 63 None (a0 :: a1 :: a2 :: a3 :: r) 63 lu sa pp) (Norm (ls s f (zlen s) None 0 None 0 None 0 63 None (a0 :: a1 :: a2 :: a3 :: r) 63 lu sa pp))).
        { rewrite head_form. eapply (runs_if rt cl M); [exact AE|]. apply runs_skip. }
        pose proof (tail_runs U lab s f K FF PS LS F 0 0 0 s lu sa None None None (or_introl eq_refl) (part_whole s) LS (fun l E => u8_label s l PS E) 63 None a0 a1 a2 a3 r pp R59 ltac:(lia) (or_intror (conj eq_refl (conj ZL eq_refl)))) as TR.
        cbn [Z.eqb] in TR. destruct (label_tail U s None 63 f) as [t|e| |]; [| |exact Logic.I..].
        * destruct TR as (st & rest' & lu2 & pp2 & A2 & B2). exists st, rest', lu2, sa, pp2. split; [|exact B2]. apply start. change lb_main with (SSeq lb_head lb_tail). eapply (runs_seq rt cl M); [exact HD|exact A2].
        * destruct TR as (st & A2 & B2). exists st. split; [|exact B2]. apply start. change lb_main with (SSeq lb_head lb_tail). eapply (runs_seq rt cl M); [exact HD|exact A2].
    Qed.
    Lemma of_runs : forall v mem' st, R (f_body c_label) S0 (Ret (I32, v) st) -> arrs st = mem' -> label_returns U lab f s (label_mem s dst 63 lu sa pp) v mem'.
    Proof.
      intros v mem' st (m & E & _) A. exists m. intros n N. unfold run. rewrite (runs_at _ _ (lf_mono U lab) _ _ _ _ E ltac:(discriminate) n N). cbn [fst snd]. rewrite A. reflexivity.
    Qed.
  End Run.
  Lemma text_label : label_text U lab f s (lab_of U s f).
  Proof.
    intros dst lu sa pp ZD ZL ZS ZP. pose proof (text_runs dst lu sa pp ZD ZL ZS ZP) as T. pose proof (label_safe U s f K (c_string_bytes _ (proj1 PS)) (proj2 (proj2 PS))) as SF. unfold lab_of. pose proof (nz_label U s 63 f) as NZ.
    destruct (label U s 63 f) as [t|e| |]; [| |destruct SF..].
    - destruct T as (st & rest & lu' & sa' & pp' & A & B). exists rest, lu', sa', pp'. eapply of_runs; [exact A|exact B].
    - split; [exact (NZ e eq_refl)|]. destruct T as (st & A & (d' & n & u' & sa' & p' & B)). exists d', n, u', sa', p'. eapply of_runs; [exact A|exact B].
  Qed.
  Lemma text_label_fun : forall a b, label_text U lab f s a -> label_text U lab f s b -> a = b.
  Proof.
    intros a b A B. set (N := repeat (@None Z)). assert (ZN : forall n, zlen (N n) = Z.of_nat n) by (intros n; unfold N, zlen; rewrite repeat_length; reflexivity).
    set (m := Z.to_nat (1008 + 4 * zlen s)). assert (ZM : zlen (N m) = 1008 + 4 * zlen s) by (rewrite ZN; pose proof (zlen_nonneg _ s); unfold m; lia).
    specialize (A (N 63%nat) (N 63%nat) (N 252%nat) (N m) (ZN _) (ZN _) ltac:(rewrite ZN; lia) ltac:(lia)). specialize (B (N 63%nat) (N 63%nat) (N 252%nat) (N m) (ZN _) (ZN _) ltac:(rewrite ZN; lia) ltac:(lia)).
    destruct a as [ra|ta], b as [rb|tb].
    - destruct A as (_ & a1 & a2 & a3 & a4 & a5 & A), B as (_ & b1 & b2 & b3 & b4 & b5 & B). pose proof (returns_fun _ _ _ _ A B) as E. apply (f_equal fst) in E. cbn [fst] in E. rewrite E. reflexivity.
    - destruct A as (NZ & a1 & a2 & a3 & a4 & a5 & A), B as (b2 & b3 & b4 & b5 & B). pose proof (returns_fun _ _ _ _ A B) as E. apply (f_equal fst) in E. cbn [fst] in E. contradiction.
    - destruct A as (b2 & b3 & b4 & b5 & A), B as (NZ & a1 & a2 & a3 & a4 & a5 & B). pose proof (returns_fun _ _ _ _ B A) as E. apply (f_equal fst) in E. cbn [fst] in E. contradiction.
    - destruct A as (a2 & a3 & a4 & a5 & A), B as (b2 & b3 & b4 & b5 & B). pose proof (returns_fun _ _ _ _ A B) as E. apply (f_equal snd) in E. cbn [snd] in E. unfold label_mem in E. f_equal.
      apply (same_result ta tb a2 b2).
      + exact (f_equal (fun m => match m with _ :: _ :: (_, (_, [Some z])) :: _ => z | _ => 0 end) E).
      + exact (f_equal (fun m => match m with _ :: (_, (_, a)) :: _ => a | _ => [] end) E).
  Qed.
End Text.

Lemma text_label_iff : forall U lab f s r, nfc_ok U -> plain_label s -> 4 * zlen s < two64 -> 0 <= f < 2147483648 -> (label_text U lab f s r <-> r = lab_of U s f).
Proof.
  intros U lab f s r K PS LS F. split.
  - intros H. exact (text_label_fun U lab s f r _ H (text_label U lab s f K PS LS F)).
  - intros ->. apply text_label; assumption.
Qed.
Lemma lab_ok : forall U s f t, lab_of U s f = inr t <-> label U s 63 f = Ok t.
Proof. intros U s f t. unfold lab_of. destruct (label U s 63 f); split; intros H; try discriminate H; injection H as ->; reflexivity. Qed.
Lemma lab_fail : forall U s f rc, nfc_ok U -> plain_label s -> (lab_of U s f = inl rc <-> label U s 63 f = Fail rc).
Proof.
  intros U s f rc K PS. pose proof (label_safe U s f K (c_string_bytes _ (proj1 PS)) (proj2 (proj2 PS))) as SF. unfold lab_of. destruct (label U s 63 f); [| |destruct SF..]; split; intros H; try discriminate H; injection H as ->; reflexivity.
Qed.
Lemma eff_raw : forall f, opt_no_tr46 f = true -> eff f = f. Proof. intros f H. unfold eff. rewrite H. reflexivity. Qed.
(** label() on its own, without TR46. *)
Section Raw.
  Variables (U : uenv) (lab : list Z -> Z -> Z + list Z) (f : Z) (s : list Z).
  Hypothesis K : nfc_ok U.
  Hypothesis B : Forall (fun b => 0 < b <= 255) s.
  Hypothesis D : ~ In 46 s.
  Hypothesis LS : 4 * zlen s < two64.
  Hypothesis F : 0 <= f < 2147483648.
  Hypothesis BF : ~ bad_flags f.
  Hypothesis NT : opt_no_tr46 f = true.
  Lemma s_plain : plain_label s. Proof. pose proof (zlen_nonneg _ s). repeat split; [exact B|exact D|unfold two64 in *; lia]. Qed.
  Lemma label_accepts : forall t, label_text U lab f s (inr t) <-> raw_label U f s t.
  Proof. intros t. rewrite (text_label_iff U lab f s (inr t) K s_plain LS F). rewrite <- (raw_label_iff U K f s t BF NT s_plain), (eff_raw f NT), <- lab_ok. split; intros H; symmetry; exact H. Qed.
  Lemma label_refuses : forall rc, zlen s <= 1000000000 -> (label_text U lab f s (inl rc) <-> raw_refuses U f s rc).
  Proof.
    intros rc L. rewrite (text_label_iff U lab f s (inl rc) K s_plain LS F). pose proof (raw_ok U K f s BF NT s_plain) as (S1 & S2). rewrite (eff_raw f NT) in S1, S2. pose proof (lab_fail U s f) as LF. split.
    - intros H. apply S1. apply LF; [exact K|exact s_plain|]. symmetry. exact H.
    - intros H. destruct (S2 rc H) as (rc' & E & [->|(X & _)]); [|lia]. symmetry. apply LF; [exact K|exact s_plain|exact E].
  Qed.
End Raw.
Lemma label_one : forall U lab f s, nfc_ok U -> Forall (fun b => 0 < b <= 255) s -> ~ In 46 s -> 4 * zlen s < two64 -> 0 <= f < 2147483648 -> exists r, label_text U lab f s r /\ forall r', label_text U lab f s r' -> r' = r.
Proof.
  intros U lab f s K B D LS F. assert (PS : plain_label s) by (pose proof (zlen_nonneg _ s); repeat split; [exact B|exact D|unfold two64 in *; lia]).
  exists (lab_of U s f). split; [apply text_label; assumption|]. intros r' H. apply (text_label_iff U lab f s r' K PS LS F). exact H.
Qed.

(** With the text of label() in the lookup. *)
Lemma asm_same : forall (lab lab' : list Z -> Z -> Z + list Z) f ls acc, (forall x, In x ls -> lab x f = lab' x f) -> assemble lab f acc ls = assemble lab' f acc ls.
Proof.
  intros lab lab' f. induction ls as [|x ls IH]; intros acc H; [reflexivity|]. cbn [assemble]. rewrite (H x (or_introl eq_refl)). destruct (lab' x f) as [rc|t]; [reflexivity|].
  destruct ls as [|y ls]; [reflexivity|]. rewrite IH by (intros z Hz; apply H; right; exact Hz). reflexivity.
Qed.
Section Whole.
  Variables (U : uenv) (lab : list Z -> Z -> Z + list Z).
  Hypothesis K : nfc_ok U.
  Hypothesis LI : label_is U lab.
  Lemma lab_is : forall s f, plain_label s -> 4 * zlen s < two64 -> 0 <= f < 2147483648 -> lab s f = lab_of U s f.
  Proof. intros s f PS LS F. destruct LI as (_ & H). apply (text_label_iff U lab f s _ K PS LS F). apply H; [apply PS|apply PS|exact LS|exact F]. Qed.
  Lemma whole_ok : forall f s, c_string s -> 32 * (zlen s + 1) < two64 -> 0 <= f < 2147483648 ->
    (forall d, lookup_text U lab f s (inr d) <-> lookup_u8 U s f = Ok d) /\ (forall rc, lookup_text U lab f s (inl rc) <-> lookup_u8 U s f = Fail rc).
  Proof.
    intros f s C L F.
    assert (T : match lookup_u8 U s f with Ok d => lookup_text U lab f s (inr d) | Fail rc => lookup_text U lab f s (inl rc) | _ => False end).
    { apply lookup_text_gen; try assumption. intros g o G CO LO. assert (LO' : zlen o < 9223372036854775807) by (unfold two64 in LO; lia). assert (DS : dotted (split_dots o) o) by (apply dotted_iff; reflexivity).
      assert (PL : Forall plain_label (split_dots o)) by (apply plain_split; [exact CO|unfold two64; lia]).
      rewrite (model_asm U g (split_dots o) [] K PL ltac:(discriminate) (proj1 DS)). pose proof (lookup_run U lab (proj1 LI) g o (split_dots o) CO LO' DS) as RN.
      rewrite (asm_same (lab_of U) lab); [destruct (assemble lab g [] (split_dots o)); exact RN|].
      intros x Hx. symmetry. apply lab_is; [rewrite Forall_forall in PL; apply PL; exact Hx| |exact G]. apply split_zlen in Hx. lia. }
    pose proof (fun r1 r2 => lookup_text_fun U lab f s r1 r2 K C L F) as FN.
    destruct (lookup_u8 U s f) as [d0|rc0| |]; [| |destruct T|destruct T]; split; intros x; split; intros H.
    - pose proof (FN _ _ T H) as E. injection E as ->. reflexivity.
    - injection H as <-. exact T.
    - pose proof (FN _ _ T H) as E. discriminate E.
    - discriminate H.
    - pose proof (FN _ _ T H) as E. discriminate E.
    - discriminate H.
    - pose proof (FN _ _ T H) as E. injection E as ->. reflexivity.
    - injection H as <-. exact T.
  Qed.
  Lemma whole_accepts : forall f s d, c_string s -> 32 * (zlen s + 1) < two64 -> 0 <= f < 2147483648 -> (lookup_text U lab f s (inr d) <-> accepts U f s d).
  Proof. intros f s d C L F. rewrite <- (lookup_exact U K s f d C) by (unfold two64 in *; lia). apply (whole_ok f s C L F). Qed.
  Lemma whole_refuses : forall f s rc, c_string s -> 32 * (zlen s + 1) < two64 -> 0 <= f < 2147483648 -> opt_no_tr46 f = false \/ zlen s <= 1000000000 -> (lookup_text U lab f s (inl rc) <-> refuses U f s rc).
  Proof. intros f s rc C L F Q. rewrite <- (refusal_exact U s f rc K C) by (auto; unfold two64 in *; lia). apply (whole_ok f s C L F). Qed.
End Whole.
Lemma lab_of_is : forall U, nfc_ok U -> label_is U (lab_of U).
Proof. intros U K. split; [apply lab_like; exact K|]. intros s f B D L F. apply text_label; try assumption. pose proof (zlen_nonneg _ s). repeat split; [exact B|exact D|unfold two64 in *; lia]. Qed.
