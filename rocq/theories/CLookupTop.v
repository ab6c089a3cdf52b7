(** The text of lookup.c: what it returns. *)
From Coq Require Import String.
From Verif Require Import Base PunyBase Uenv DataTypes Tr46Facts SpecTables SpecUtf8 SpecNfc SpecLookup SpecLabel SpecRefusal Utf8 Utf8Proofs Idna Lookup MapProofs LookupProofs LookupCodes LookupTr46 RefusalTop
  CLang CLogic CLeaf CLookup SpecCPuny SpecCLookup CLookupMap CLookupTr46 CLookupName CLookupCheck.
Local Open Scope string_scope.
Local Open Scope list_scope.
Local Open Scope Z_scope.
Arguments calls : simpl never.
Arguments types : simpl never.
Arguments lookup_program : simpl never.

Section Top.
  Variable U : uenv.
  Variable lab : list Z -> Z -> Z + list Z.
  Notation P := (lookup_program U lab).
  Notation R := (runs (types P) (calls P 1)).
  Lemma l_of_runs : forall f args mem v mem' st, f_ret f = I32 -> R (f_body f) (mkst (declare f args) mem) (Ret (I32, v) st) -> arrs st = mem' -> l_returns U lab f args mem v mem'.
  Proof.
    intros f args mem v mem' st RT (m & E & _) A. exists m. intros n N. unfold run. rewrite (runs_at _ _ (lk_mono U lab) _ _ _ _ E ltac:(discriminate) n N). cbn [fst snd]. rewrite RT, A. reflexivity.
  Qed.
  (** Z.lor with 8. *)
  Lemma eff_bits : forall f i, 0 <= i -> bit (eff f) i = bit f i || ((i =? 3) && negb (opt_no_tr46 f || opt_transitional f)).
  Proof.
    intros f i H. unfold eff. destruct (opt_no_tr46 f || opt_transitional f); cbn [negb]; [rewrite andb_false_r, orb_false_r; reflexivity|]. rewrite andb_true_r. apply opt_lor8. exact H.
  Qed.
  Lemma default_eff : forall f, 0 <= f -> (bad_flags f -> default_returns U lab f IDN2_INVALID_FLAGS f) /\ (~ bad_flags f -> default_returns U lab f 0 (eff f)).
  Proof.
    intros f F. pose proof (default_runs U lab f F) as D. destruct (set_flags_spec f) as [(B & E)|(B & E)]; rewrite E in D; (split; [intros B2|intros B2]; try contradiction); (eapply l_of_runs; [reflexivity|exact D|reflexivity]).
  Qed.
  Lemma default_ok : forall f, 0 <= f < 2147483648 ->
    (bad_flags f -> default_returns U lab f IDN2_INVALID_FLAGS f) /\
    (~ bad_flags f -> exists g, default_returns U lab f 0 g /\ forall i, 0 <= i -> bit g i = bit f i || ((i =? 3) && negb (opt_no_tr46 f || opt_transitional f))).
  Proof.
    intros f F. destruct (default_eff f (proj1 F)) as (A & B). split; [exact A|]. intros H. exists (eff f). split; [exact (B H)|]. intros i I. apply eff_bits. exact I.
  Qed.
  Lemma compare_ok : forall s1 s2 n, Forall (fun b => 0 <= b <= 255) s1 -> Forall (fun b => 0 <= b <= 255) s2 -> zlen s1 < two64 -> 0 <= n <= zlen s1 -> n <= zlen s2 ->
    exists v, compare_returns U lab s1 s2 n v /\ (v = 0 <-> map lower (counted (Z.to_nat n) s1) = map lower (counted (Z.to_nat n) s2)).
  Proof.
    intros s1 s2 n B1 B2 L N1 N2. destruct (compare_body U lab s1 s2 [] [] B1 B2 L n N1 N2) as (v & st & A & M & _ & E). exists v. split; [|exact E]. unfold ss, smem in A, M. rewrite !app_nil_r in A, M. eapply l_of_runs; [reflexivity|exact A|exact M].
  Qed.
  Section Tr46.
    Variables (f : Z) (l : list Z).
    Hypothesis F : 0 <= f < 2147483648.
    Hypothesis WL : Forall (fun c => 0 < c < two32) l.
    Hypothesis LL : 32 * (zlen l + 1) < two64.
    Notation M := (uts46_map (opt_transitional f) (opt_std3 f) l).
    Lemma count_ok :
      (Exists (fun c => status_of c = Disallowed) l -> count_returns U lab f l IDN2_DISALLOWED None) /\
      (~ Exists (fun c => status_of c = Disallowed) l -> zlen M < 255 -> count_returns U lab f l 0 (Some (4 * (zlen M + 1)))) /\
      (~ Exists (fun c => status_of c = Disallowed) l -> 255 <= zlen M -> count_returns U lab f l IDN2_TOO_BIG_DOMAIN None).
    Proof.
      destruct (count_body U lab f (proj1 F) l WL LL) as (st & size & A & B & C). pose proof (disallowedb_iff l) as D.
      split; [|split].
      - intros E. apply D in E. rewrite E in *. subst size. eapply l_of_runs; [reflexivity|exact A|exact B].
      - intros E H. destruct (existsb disallowedb l); [destruct E; apply D; reflexivity|]. replace (255 <=? zlen M) with false in * by lia. subst size. eapply l_of_runs; [reflexivity|exact A|exact B].
      - intros E H. destruct (existsb disallowedb l); [destruct E; apply D; reflexivity|]. replace (255 <=? zlen M) with true in * by lia. subst size. eapply l_of_runs; [reflexivity|exact A|exact B].
    Qed.
    Lemma write_ok : forall tmp, zlen M + 1 <= zlen tmp -> write_returns U lab f l tmp (map Some (M ++ [0]) ++ skipn (length M + 1) tmp) (zlen M + 1).
    Proof. intros tmp H. destruct (write_body U lab f (proj1 F) l WL LL tmp H) as (st & A & B). eapply l_of_runs; [reflexivity|exact A|exact B]. Qed.
  End Tr46.
  (** The checks. *)
  Lemma check1_eff : forall f s, tr46_check1 U (eff f) s = tr46_check1 U f s.
  Proof. intros f s. unfold tr46_check1. rewrite !has_transitional, !has_std3, eff_transitional, eff_std3. reflexivity. Qed.
  Lemma checks_eff : forall f ls err, tr46_checks U (eff f) ls err = tr46_checks U f ls err.
  Proof.
    intros f. induction ls as [|s ls IH]; intros err; [reflexivity|]. cbn [tr46_checks]. rewrite check1_eff. destruct s, ls; try reflexivity; destruct (tr46_check1 U f _) as [[u|r| |]|r| |]; cbn [bind]; try reflexivity; apply IH.
  Qed.
  Section Labels.
    Variables (f : Z) (n rest : list Z) (ls : list (list Z)).
    Hypothesis K : nfc_ok U.
    Hypothesis F : 0 <= f < 2147483648.
    Hypothesis SN : Forall scalar n.
    Hypothesis N0 : ~ In 0 n.
    Hypothesis LN : zlen n < 1000000.
    Hypothesis DN : dotted ls n.
    Lemma labels_run : match tr46_checks U f ls 0 with Ok r | Fail r => labels_return U lab f n rest r | _ => True end.
    Proof.
      assert (W : Forall (fun c => 0 < c < two32) n). { rewrite Forall_forall in *. intros c Q. specialize (SN c Q). unfold scalar in SN. assert (c <> 0) by (intros ->; contradiction). unfold two32. lia. }
      pose proof (labels_body U lab f (proj1 F) n rest W ltac:(lia)) as L. apply dotted_iff in DN. rewrite DN in L.
      destruct (tr46_checks U f ls 0) as [r|r| |]; try exact I; destruct L as (st & A & B); eapply l_of_runs; [reflexivity|exact A|exact B|reflexivity|exact A|exact B].
    Qed.
    Lemma labels_fit : Forall fit ls.
    Proof.
      destruct DN as (NE & ND & E). apply Forall_forall. intros s Q. split; [|split].
      - apply Forall_forall. intros c C. apply (proj1 (Forall_forall _ _) SN). rewrite E. clear -Q C. induction ls as [|x r IH]; [destruct Q|]. destruct Q as [->|Q]; destruct r as [|y r]; cbn [join]; [exact C|apply in_app_iff; left; exact C|destruct Q|].
        apply in_app_iff. right. right. apply IH. exact Q.
      - assert (I : In s (split_dots n)) by (rewrite (proj1 (dotted_iff ls n) DN); exact Q). apply split_zlen in I. lia.
      - exact (proj1 (Forall_forall _ _) ND s Q).
    Qed.
    Lemma labels_pass : Forall (passes46 U f) ls -> labels_return U lab f n rest 0.
    Proof. intros H. pose proof labels_run as L. pose proof (checks_pass U K f ls 0 labels_fit H) as C. rewrite checks_eff in C. rewrite C in L. exact L. Qed.
    Lemma labels_refuse : forall rc, checks_refuse U f ls rc -> labels_return U lab f n rest rc.
    Proof. intros rc H. pose proof labels_run as L. destruct (checks_bw U K f ls rc 0 labels_fit H) as [C|(C & _)]; rewrite checks_eff in C; rewrite C in L; exact L. Qed.
    Lemma labels_cases : Forall (passes46 U f) ls \/ exists rc, checks_refuse U f ls rc.
    Proof.
      pose proof (checks_fw U K f ls 0 labels_fit) as C. destruct (tr46_checks U (eff f) ls 0) as [e|rc| |]; [| |destruct C|destruct C].
      - destruct C as [(_ & C)|(a & s & b & E & D & W & A)]; [left; exact C|right; exists e; exact (cr_wrong U f ls e a s b E D W A)].
      - destruct C as (a & e & b & E & D & W). right. exists rc. exact (cr_undecodable U f ls rc a e b E D W).
    Qed.
  End Labels.
  (** Putting the name together. *)
  Section Names.
    Hypothesis LAB : label_like lab.
    Variables (f : Z) (s : list Z) (ls : list (list Z)).
    Hypothesis CS : c_string s.
    Hypothesis LS : zlen s < 9223372036854775807.
    Hypothesis DS : dotted ls s.
    Lemma lookup_run : match assemble lab f [] ls with
      | inl rc => exists buf, lookup_returns U lab f s rc buf None
      | inr d => exists rest, lookup_returns U lab f s 0 (map Some (d ++ [0]) ++ rest) (Some (zlen d + 1))
      end.
    Proof.
      pose proof (name_body U lab LAB f s LS CS ls DS) as N. destruct (assemble lab f [] ls) as [rc|d].
      - destruct N as (st & buf & A & _ & B). exists buf. eapply l_of_runs; [reflexivity|exact A|exact B].
      - destruct N as (st & rest & A & _ & B). exists rest. eapply l_of_runs; [reflexivity|exact A|exact B].
    Qed.
    Lemma lookup_done : forall ts, Forall2 (fun l t => lab l f = inr t) ls ts -> zlen (join ts) <= 253 \/ zlen (join ts) = 254 /\ last ts [0] = [] ->
      exists rest, lookup_returns U lab f s 0 (map Some (join ts ++ [0]) ++ rest) (Some (zlen (join ts) + 1)).
    Proof. intros ts H G. pose proof lookup_run as L. rewrite (asm_ok lab f ls ts [] H (proj1 DS) G) in L. exact L. Qed.
    Lemma lookup_error : forall l1 ts x l2 rc, ls = l1 ++ x :: l2 -> Forall2 (fun l t => lab l f = inr t) l1 ts -> zlen (join ts) <= 253 -> lab x f = inl rc -> exists buf, lookup_returns U lab f s rc buf None.
    Proof. intros l1 ts x l2 rc E H G X. pose proof lookup_run as L. rewrite E, (asm_error lab f l1 ts x l2 rc H G X) in L. exact L. Qed.
    Lemma lookup_long : forall l1 ts x t l2, ls = l1 ++ x :: l2 -> Forall2 (fun l t => lab l f = inr t) l1 ts -> zlen (join ts) <= 253 -> lab x f = inr t ->
      254 < zlen (join (ts ++ [t])) \/ zlen (join (ts ++ [t])) = 254 /\ ~ (t = [] /\ l2 = []) -> exists buf, lookup_returns U lab f s IDN2_TOO_BIG_DOMAIN buf None.
    Proof. intros l1 ts x t l2 E H G X Q. pose proof lookup_run as L. rewrite E, (asm_long lab f l1 ts x t l2 H G X Q) in L. exact L. Qed.
  End Names.
End Top.

(** With label() itself. *)
Definition lab_of (U : uenv) (s : list Z) (f : Z) : Z + list Z := match label U s 63 f with Ok t => inr t | Fail rc => inl rc | _ => inl IDN2_MALLOC end.
Lemma lab_like : forall U, nfc_ok U -> label_like (lab_of U).
Proof.
  intros U K s f B D L. assert (PL : plain_label s) by (repeat split; assumption). unfold lab_of. destruct (label U s 63 f) as [t|rc| |] eqn:E; [| |split; [discriminate|unfold IDN2_MALLOC; lia]..].
  - destruct (label_shape U f s t K PL E) as (Z63 & S). split; [|exact Z63]. eapply Forall_impl; [|exact S]. cbn. intros a. lia.
  - pose proof (fails_label U f s K PL rc E) as I. unfold lookup_errors in I. cbn [In] in I. intuition (subst; (discriminate || (split; [discriminate|lia]) || idtac)).
Qed.
Lemma model_asm : forall U f ls acc, nfc_ok U -> Forall (fun l => plain_label l) ls -> zlen acc <= 254 -> ls <> [] ->
  lookup_labels U f ls acc = match assemble (lab_of U) f acc ls with inl rc => Fail rc | inr d => Ok d end.
Proof.
  intros U f. induction ls as [|l ls IH]; intros acc K F A NE; [contradiction|]. inversion F as [|? ? P1 P2]; subst. cbn [lookup_labels assemble]. unfold lab_of at 1. unfold LABEL_MAX.
  pose proof (label_safe U l f K (c_string_bytes _ (proj1 P1)) (proj2 (proj2 P1))) as SF. pose proof (lab_like U K l f (proj1 P1) (proj1 (proj2 P1)) (proj2 (proj2 P1))) as LL. unfold lab_of in LL.
  destruct (label U l 63 f) as [t|rc| |]; cbn [bind safe] in *; [|reflexivity|destruct SF|destruct SF]. destruct LL as (_ & T63). unfold DOMAIN_MAX. rewrite zlen_app.
  assert (Z0 : 0 <= zlen t) by (unfold zlen; lia).
  destruct ls as [|l2 ls].
  - destruct ((zlen t =? 0) && true); destruct (_ <? zlen acc + zlen t) eqn:Q; try reflexivity; replace (255 + 1 <? zlen acc + zlen t) with false by lia; replace (255 <? zlen acc + zlen t) with false by lia; reflexivity.
  - rewrite andb_false_r. destruct (_ <? zlen acc + zlen t) eqn:Q; [reflexivity|]. replace (255 + 1 <? zlen acc + zlen t) with false by lia. rewrite !zlen_app. change (zlen [46]) with 1. replace (255 <? zlen acc + zlen t + 1) with false by lia.
    rewrite <- app_assoc. apply IH; [exact K|exact P2|rewrite !zlen_app; change (zlen [46]) with 1; lia|discriminate].
Qed.
Lemma lookup_model : forall U f s, nfc_ok U -> c_string s -> zlen s < 9223372036854775807 ->
  match lookup_labels U f (split_dots s) [] with
  | Ok d => exists rest, lookup_returns U (lab_of U) f s 0 (map Some (d ++ [0]) ++ rest) (Some (zlen d + 1))
  | Fail rc => exists buf, lookup_returns U (lab_of U) f s rc buf None
  | _ => False
  end.
Proof.
  intros U f s K C L. pose proof (dotted_iff (split_dots s) s) as D. assert (DS : dotted (split_dots s) s) by (apply D; reflexivity).
  rewrite (model_asm U f (split_dots s) [] K (plain_split s C ltac:(unfold two64; lia)) ltac:(discriminate) (proj1 DS)). pose proof (lookup_run U (lab_of U) (lab_like U K) f s (split_dots s) C L DS) as R.
  destruct (assemble (lab_of U) f [] (split_dots s)); exact R.
Qed.
Lemma lor8_range : forall f, 0 <= f < 2147483648 -> 0 <= eff f < 2147483648.
Proof.
  intros f F. unfold eff. destruct (_ || _); [exact F|]. split; [apply Z.lor_nonneg; lia|]. destruct (Z.eq_dec f 0) as [->|N]; [reflexivity|].
  assert (0 < Z.lor f 8). { assert (0 <= Z.lor f 8) by (apply Z.lor_nonneg; lia). assert (Z.lor f 8 <> 0) by (intros E; apply Z.lor_eq_0_iff in E; lia). lia. }
  apply (Z.log2_lt_pow2 (Z.lor f 8) 31); [assumption|]. rewrite Z.log2_lor by lia. apply Z.max_lub_lt; [apply Z.log2_lt_pow2; lia|reflexivity].
Qed.
Lemma tr46_text_ok : forall U lab g s, nfc_ok U -> c_string s -> 32 * (zlen s + 1) < two64 -> 0 <= g < 2147483648 ->
  match tr46 U s g with Ok o => tr46_text U lab g s (inr o) | Fail rc => tr46_text U lab g s (inl rc) | _ => False end.
Proof.
  intros U lab g s K C L G. rewrite tr46_eq by assumption. unfold tr46_spec. pose proof (c_string_bytes _ C) as B.
  destruct (u8_to_u32 s) as [l|] eqn:E.
  2: { apply tt_utf8. intros (l & H). apply u8_to_u32_iff in H; [|exact B]. rewrite E in H. discriminate H. }
  apply u8_to_u32_iff in E; [|exact B]. pose proof (utf8_scalar _ _ E) as SL. pose proof (utf8_c_string _ _ E C) as L0. pose proof (utf8_len _ _ E) as LZ.
  assert (W : Forall (fun c => 0 < c < two32) l). { rewrite Forall_forall in *. intros c Q. specialize (SL c Q). specialize (L0 c Q). unfold scalar in SL. unfold two32. lia. }
  destruct (count_ok U lab g l G W ltac:(unfold two64 in *; lia)) as (C1 & C2 & C3). pose proof (disallowedb_iff l) as DI.
  destruct (existsb disallowedb l) eqn:ED.
  { apply (tt_count U lab g s l IDN2_DISALLOWED E); [apply C1; apply DI; reflexivity|discriminate]. }
  assert (ND : ~ Exists (fun c => status_of c = Disallowed) l) by (intros Q; apply DI in Q; discriminate Q). cbv zeta.
  set (m := uts46_map (opt_transitional g) (opt_std3 g) l) in *. destruct (uts46_map_ok (opt_transitional g) (opt_std3 g) l SL L0) as (M1 & M2). fold m in M1, M2.
  destruct (255 <=? zlen m) eqn:EL.
  { apply (tt_count U lab g s l IDN2_TOO_BIG_DOMAIN E); [apply C3; [exact ND|lia]|discriminate]. }
  specialize (C2 ND ltac:(lia)). set (tmp := repeat (@None Z) (length m + 1)).
  assert (TL : zlen tmp = zlen m + 1) by (unfold tmp, zlen; rewrite repeat_length; lia). rewrite <- TL in C2.
  pose proof (write_ok U lab g l G W ltac:(unfold two64 in *; lia) tmp) as WR. fold m in WR. specialize (WR ltac:(lia)).
  assert (SK : skipn (length m + 1) tmp = []) by (apply skipn_all2; unfold tmp; rewrite repeat_length; lia). rewrite SK, app_nil_r in WR.
  assert (ZM : zlen m + 1 = zlen (m ++ [0])) by (rewrite zlen_app; reflexivity). rewrite ZM in WR.
  pose proof (nfc_nul U m K M2) as NN. destruct (ue_nfc U m) as [n|] eqn:EN.
  2: { exact (tt_nfc U lab g s l tmp (m ++ [0]) E C2 WR NN). }
  destruct NN as (N1 & N2). pose proof (nfc_scalar U K _ _ M1 EN) as SN. pose proof (nfc_length U K _ _ EN) as LN.
  assert (DN : dotted (split_dots n) n) by (apply dotted_iff; reflexivity).
  pose proof (labels_run U lab g n [] (split_dots n) G SN N2 ltac:(lia) DN) as LR.
  assert (F : Forall (fun s => Forall scalar s /\ zlen s < 1000000) (split_dots n)).
  { apply Forall_forall. intros x Hx. split; [|apply split_zlen in Hx; lia]. pose proof (split_Forall scalar n SN) as Q. rewrite Forall_forall in Q. now apply Q. }
  destruct (checks_spec U g (split_dots n) IDN2_OK K F) as (S1 & _). pose proof (NonZero.nz_tr46_checks U g (split_dots n) IDN2_OK) as NZ. unfold IDN2_OK in *.
  destruct (tr46_checks U g (split_dots n) 0) as [e|rc| |]; [| |destruct S1|destruct S1]; cbn [bind].
  - destruct (e =? 0) eqn:E0; cbn [negb].
    + apply Z.eqb_eq in E0. subst e. destruct (u32_to_u8_total n SN) as (o & O). rewrite O. cbn [Utf8.conv]. apply (tt_done U lab g s l tmp (m ++ [0]) n o E C2 WR N1 N2 LR).
      apply u32_to_u8_iff. rewrite u32_to_u8_app, O. reflexivity.
    + apply (tt_labels U lab g s l tmp (m ++ [0]) n [] e E C2 WR N1 N2 LR). lia.
  - apply (tt_labels U lab g s l tmp (m ++ [0]) n [] rc E C2 WR N1 N2 LR). apply (NZ rc eq_refl).
Qed.
Lemma lookup_text_gen : forall U lab f s, nfc_ok U -> c_string s -> 32 * (zlen s + 1) < two64 -> 0 <= f < 2147483648 ->
  (forall g o, 0 <= g < 2147483648 -> c_string o -> 4 * zlen o < two64 -> match lookup_labels U g (split_dots o) [] with
  | Ok d => exists rest, lookup_returns U lab g o 0 (map Some (d ++ [0]) ++ rest) (Some (zlen d + 1))
  | Fail rc => exists buf, lookup_returns U lab g o rc buf None
  | _ => False
  end) ->
  match lookup_u8 U s f with Ok d => lookup_text U lab f s (inr d) | Fail rc => lookup_text U lab f s (inl rc) | _ => False end.
Proof.
  intros U lab f s K C L F HM. unfold lookup_u8. destruct (default_eff U lab f (proj1 F)) as (D1 & D2). destruct (set_flags_spec f) as [(B & E)|(B & E)]; rewrite E; cbn [bind].
  - apply (lt_flags U lab f s IDN2_INVALID_FLAGS f (D1 B)). discriminate.
  - pose proof (D2 B) as DR. pose proof (lor8_range f F) as G.
    assert (TAIL : forall o, c_string o -> 4 * zlen o < two64 -> (if opt_no_tr46 (eff f) then o = s else tr46_text U lab (eff f) s (inr o)) ->
      match lookup_labels U (eff f) (split_dots o) [] with Ok d => lookup_text U lab f s (inr d) | Fail rc => lookup_text U lab f s (inl rc) | _ => False end).
    { intros o CO LO H. pose proof (HM (eff f) o G CO ltac:(unfold two64 in *; lia)) as M. pose proof (fails_labels U (eff f) (split_dots o) [] K (plain_split o CO ltac:(unfold two64 in *; lia))) as FL.
      destruct (lookup_labels U (eff f) (split_dots o) []) as [d|rc| |]; [| |exact M|exact M].
      - destruct M as (rest & M). exact (lt_done U lab f s (eff f) o d rest DR H M).
      - destruct M as (buf & M). apply (lt_error U lab f s (eff f) o rc buf DR H M). pose proof (FL rc eq_refl) as I. unfold lookup_errors in I. cbn [In] in I. intuition (subst; discriminate). }
    rewrite has_no_tr46. destruct (opt_no_tr46 (eff f)) eqn:NT; cbn [negb bind].
    + apply TAIL; [exact C|unfold two64 in *; lia|reflexivity].
    + pose proof (tr46_text_ok U lab (eff f) s K C L G) as T. pose proof (tr46_ok_iff U s (eff f)) as OK. destruct (tr46 U s (eff f)) as [o|rc| |]; [| |exact T|exact T]; cbn [bind].
      * destruct (proj1 (OK o K C) eq_refl) as (l & n & Q). apply tr46_out in Q. apply TAIL; [tauto|unfold two64; lia|exact T].
      * exact (lt_tr46 U lab f s (eff f) rc DR NT T).
Qed.
Lemma lookup_text_ok : forall U f s, nfc_ok U -> c_string s -> 32 * (zlen s + 1) < two64 -> 0 <= f < 2147483648 ->
  match lookup_u8 U s f with Ok d => lookup_text U (lab_of U) f s (inr d) | Fail rc => lookup_text U (lab_of U) f s (inl rc) | _ => False end.
Proof. intros U f s K C L F. apply lookup_text_gen; try assumption. intros g o _ CO LO. apply lookup_model; [exact K|exact CO|unfold two64 in LO; lia]. Qed.
(** Nothing else is returned. *)
Lemma l_fun : forall U lab f args mem v1 m1 v2 m2, l_returns U lab f args mem v1 m1 -> l_returns U lab f args mem v2 m2 -> v1 = v2 /\ m1 = m2.
Proof. intros U lab f args mem v1 m1 v2 m2 A B. destruct A as (i & A), B as (j & B). specialize (A (i + j)%nat ltac:(lia)). specialize (B (i + j)%nat ltac:(lia)). rewrite A in B. apply (f_equal (fun r => match r with Val x => x | _ => (0, []) end)) in B. pose proof B as E. split; [exact (f_equal fst E)|exact (f_equal snd E)]. Qed.
Lemma some_inj : forall a b : list Z, map Some a = map Some b -> a = b.
Proof. induction a as [|x a IH]; intros [|y b] E; try discriminate E; [reflexivity|]. cbn [map] in E. injection E as -> E. f_equal. apply IH. exact E. Qed.
Lemma first_nul : forall a b r t, ~ In 0 a -> ~ In 0 b -> a ++ 0 :: r = b ++ 0 :: t -> a = b /\ r = t.
Proof.
  induction a as [|x a IH]; intros [|y b] r t A B E; cbn [app] in E.
  - injection E as E. auto.
  - injection E as E1 E2. destruct B. left. symmetry. exact E1.
  - injection E as E1 E2. destruct A. left. exact E1.
  - injection E as -> E. destruct (IH b r t) as (-> & ->); [intros Q; apply A; right; exact Q|intros Q; apply B; right; exact Q|exact E|]. auto.
Qed.
Lemma default_fun : forall U lab f r1 g1 r2 g2, default_returns U lab f r1 g1 -> default_returns U lab f r2 g2 -> r1 = r2 /\ g1 = g2.
Proof.
  intros U lab f r1 g1 r2 g2 A B. destruct (l_fun _ _ _ _ _ _ _ _ _ A B) as (E & M). split; [exact E|]. apply (f_equal (fun m => match m with (_, (_, [Some g])) :: _ => g | _ => 0 end)) in M. exact M.
Qed.
Lemma count_fun : forall U lab g l r1 z1 r2 z2, count_returns U lab g l r1 z1 -> count_returns U lab g l r2 z2 -> r1 = r2 /\ z1 = z2.
Proof.
  intros U lab g l r1 z1 r2 z2 A B. destruct (l_fun _ _ _ _ _ _ _ _ _ A B) as (E & M). split; [exact E|]. apply (f_equal (fun m => match m with _ :: (_, (_, [z])) :: _ => z | _ => None end)) in M. exact M.
Qed.
Lemma write_fun : forall U lab g l t a1 z1 a2 z2, write_returns U lab g l t a1 z1 -> write_returns U lab g l t a2 z2 -> a1 = a2.
Proof. intros U lab g l t a1 z1 a2 z2 A B. destruct (l_fun _ _ _ _ _ _ _ _ _ A B) as (E & M). apply (f_equal (fun m => match m with _ :: (_, (_, a)) :: _ => a | _ => [] end)) in M. exact M. Qed.
Lemma labels_fun : forall U lab g n rest r1 r2, labels_return U lab g n rest r1 -> labels_return U lab g n rest r2 -> r1 = r2.
Proof. intros U lab g n rest r1 r2 A B. exact (proj1 (l_fun _ _ _ _ _ _ _ _ _ A B)). Qed.
Lemma lookup_fun : forall U lab g s r1 b1 z1 r2 b2 z2, lookup_returns U lab g s r1 b1 z1 -> lookup_returns U lab g s r2 b2 z2 -> r1 = r2 /\ b1 = b2 /\ z1 = z2.
Proof.
  intros U lab g s r1 b1 z1 r2 b2 z2 A B. destruct (l_fun _ _ _ _ _ _ _ _ _ A B) as (E & M). split; [exact E|]. split.
  - apply (f_equal (fun m => match m with _ :: (_, (_, a)) :: _ => a | _ => [] end)) in M. exact M.
  - apply (f_equal (fun m => match m with _ :: _ :: (_, (_, [z])) :: _ => z | _ => None end)) in M. exact M.
Qed.
Section Fun.
  Variables (U : uenv) (lab : list Z -> Z -> Z + list Z) (g : Z) (s : list Z).
  Hypothesis K : nfc_ok U.
  Hypothesis C : c_string s.
  Hypothesis L : 32 * (zlen s + 1) < two64.
  Hypothesis G : 0 <= g < 2147483648.
  (** What the first parts have left. *)
  Lemma written : forall l tmp m, utf8 l s -> count_returns U lab g l 0 (Some (4 * zlen tmp)) -> write_returns U lab g l tmp (map Some m) (zlen m) -> m = uts46_map (opt_transitional g) (opt_std3 g) l ++ [0].
  Proof.
    intros l tmp m E C0 W. pose proof (utf8_scalar _ _ E) as SL. pose proof (utf8_c_string _ _ E C) as L0. pose proof (utf8_len _ _ E) as LZ.
    assert (WL : Forall (fun c => 0 < c < two32) l). { rewrite Forall_forall in *. intros c Q. specialize (SL c Q). specialize (L0 c Q). unfold scalar in SL. unfold two32. lia. }
    destruct (count_ok U lab g l G WL ltac:(unfold two64 in *; lia)) as (C1 & C2 & C3). set (M := uts46_map (opt_transitional g) (opt_std3 g) l) in *.
    assert (TL : zlen tmp = zlen M + 1).
    { destruct (existsb disallowedb l) eqn:ED; [pose proof (C1 (proj1 (disallowedb_iff l) ED)) as Q; destruct (count_fun _ _ _ _ _ _ _ _ C0 Q) as (X & _); discriminate X|].
      assert (ND : ~ Exists (fun c => status_of c = Disallowed) l) by (intros Q; apply disallowedb_iff in Q; rewrite ED in Q; discriminate Q).
      destruct (Z_lt_le_dec (zlen M) 255) as [Q|Q]; [|pose proof (C3 ND Q) as X; destruct (count_fun _ _ _ _ _ _ _ _ C0 X) as (Y & _); discriminate Y].
      pose proof (C2 ND Q) as X. destruct (count_fun _ _ _ _ _ _ _ _ C0 X) as (_ & Y). apply (f_equal (fun o => match o with Some z => z | None => 0 end)) in Y. lia. }
    pose proof (write_ok U lab g l G WL ltac:(unfold two64 in *; lia) tmp) as WR. fold M in WR. specialize (WR ltac:(lia)).
    assert (SK : skipn (length M + 1) tmp = []) by (apply skipn_all2; unfold zlen in TL; lia). rewrite SK, app_nil_r in WR. apply some_inj. exact (write_fun _ _ _ _ _ _ _ _ _ W WR).
  Qed.
  Lemma tr46_text_fun : forall r1 r2, tr46_text U lab g s r1 -> tr46_text U lab g s r2 -> r1 = r2.
  Proof.
    assert (UQ : forall l1 l2, utf8 l1 s -> utf8 l2 s -> l1 = l2). { intros l1 l2 H1 H2. pose proof (c_string_bytes _ C) as B. apply u8_to_u32_iff in H1, H2; auto. rewrite H1 in H2. injection H2 as ->. reflexivity. }
    assert (NM : forall l tmp m l2 tmp2 m2, utf8 l s -> count_returns U lab g l 0 (Some (4 * zlen tmp)) -> write_returns U lab g l tmp (map Some m) (zlen m) -> utf8 l2 s -> count_returns U lab g l2 0 (Some (4 * zlen tmp2)) -> write_returns U lab g l2 tmp2 (map Some m2) (zlen m2) -> m = m2).
    { intros l tmp m l2 tmp2 m2 A1 A2 A3 B1 B2 B3. rewrite (written l tmp m A1 A2 A3), (written l2 tmp2 m2 B1 B2 B3), (UQ l l2 A1 B1). reflexivity. }
    intros r1 r2 A B.
    destruct A as [A1|l1 e1 A1 A2 A3|l1 t1 m1 A1 A2 A3 A4|l1 t1 m1 n1 x1 e1 A1 A2 A3 A4 A5 A6 A7|l1 t1 m1 n1 o1 A1 A2 A3 A4 A5 A6 A7];
      destruct B as [B1|l2 e2 B1 B2 B3|l2 t2 m2 B1 B2 B3 B4|l2 t2 m2 n2 x2 e2 B1 B2 B3 B4 B5 B6 B7|l2 t2 m2 n2 o2 B1 B2 B3 B4 B5 B6 B7]; try reflexivity;
      try (destruct A1; eexists; exact B1); try (destruct B1; eexists; exact A1);
      pose proof (UQ _ _ A1 B1) as EL; destruct EL; destruct (count_fun _ _ _ _ _ _ _ _ A2 B2) as (EC & ES); try (rewrite EC; reflexivity); try discriminate ES;
      pose proof (NM _ _ _ _ _ _ A1 A2 A3 B1 B2 B3) as EM; destruct EM; rewrite A4 in B4; try discriminate B4; injection B4 as B4; destruct (first_nul _ _ _ _ A5 B5 B4) as (EN & ER); destruct EN; destruct ER.
    - rewrite (labels_fun _ _ _ _ _ _ _ A6 B6). reflexivity.
    - elim A7. exact (labels_fun _ _ _ _ _ _ _ A6 B6).
    - elim B7. exact (labels_fun _ _ _ _ _ _ _ B6 A6).
    - apply u32_to_u8_iff in A7, B7. rewrite A7 in B7. injection B7 as B7. apply app_inj_tail in B7. destruct B7 as (-> & _). reflexivity.
  Qed.
End Fun.
Lemma lookup_text_fun : forall U lab f s r1 r2, nfc_ok U -> c_string s -> 32 * (zlen s + 1) < two64 -> 0 <= f < 2147483648 -> lookup_text U lab f s r1 -> lookup_text U lab f s r2 -> r1 = r2.
Proof.
  intros U lab f s r1 r2 K C L F A B.
  assert (GR : forall g, default_returns U lab f 0 g -> 0 <= g < 2147483648).
  { intros g H. destruct (default_eff U lab f (proj1 F)) as (D1 & D2). destruct (set_flags_spec f) as [(X & _)|(X & _)].
    - destruct (default_fun _ _ _ _ _ _ _ H (D1 X)) as (Y & _). discriminate Y.
    - destruct (default_fun _ _ _ _ _ _ _ H (D2 X)) as (_ & ->). apply lor8_range. exact F. }
  assert (OF : forall g o1 o2, default_returns U lab f 0 g -> (if opt_no_tr46 g then o1 = s else tr46_text U lab g s (inr o1)) -> (if opt_no_tr46 g then o2 = s else tr46_text U lab g s (inr o2)) -> o1 = o2).
  { intros g o1 o2 H X Y. destruct (opt_no_tr46 g); [rewrite X, Y; reflexivity|]. pose proof (tr46_text_fun U lab g s C L (GR g H) _ _ X Y) as E. injection E as ->. reflexivity. }
  assert (TF : forall g o rc, default_returns U lab f 0 g -> opt_no_tr46 g = false -> tr46_text U lab g s (inl rc) -> (if opt_no_tr46 g then o = s else tr46_text U lab g s (inr o)) -> False).
  { intros g o rc H NT X Y. rewrite NT in Y. pose proof (tr46_text_fun U lab g s C L (GR g H) _ _ X Y) as E. discriminate E. }
  destruct A as [e1 g1 A1 A2|g1 e1 A1 A2 A3|g1 o1 e1 b1 A1 A2 A3 A4|g1 o1 d1 t1 A1 A2 A3]; destruct B as [e2 g2 B1 B2|g2 e2 B1 B2 B3|g2 o2 e2 b2 B1 B2 B3 B4|g2 o2 d2 t2 B1 B2 B3];
    destruct (default_fun _ _ _ _ _ _ _ A1 B1) as (ER & EG); try destruct EG; try (rewrite ER; reflexivity); try (elim A2; exact ER); try (elim B2; symmetry; exact ER);
    try (destruct (TF _ _ _ A1 A2 A3 B2)); try (destruct (TF _ _ _ A1 B2 B3 A2)).
  - exact (tr46_text_fun U lab g1 s C L (GR g1 A1) _ _ A3 B3).
  - pose proof (OF _ _ _ A1 A2 B2) as EO. destruct EO. destruct (lookup_fun _ _ _ _ _ _ _ _ _ _ A3 B3) as (E & _). rewrite E. reflexivity.
  - pose proof (OF _ _ _ A1 A2 B2) as EO. destruct EO. destruct (lookup_fun _ _ _ _ _ _ _ _ _ _ A3 B3) as (E & _). elim A4. exact E.
  - pose proof (OF _ _ _ A1 A2 B2) as EO. destruct EO. destruct (lookup_fun _ _ _ _ _ _ _ _ _ _ A3 B3) as (E & _). elim B4. symmetry. exact E.
  - pose proof (OF _ _ _ A1 A2 B2) as EO. destruct EO. destruct (lookup_fun _ _ _ _ _ _ _ _ _ _ A3 B3) as (_ & EB & EZ). f_equal. apply (f_equal (fun o => match o with Some z => z | None => 0 end)) in EZ.
    apply (f_equal (firstn (length d1))) in EB. rewrite !map_app, <- !app_assoc in EB. rewrite (firstn_app (length d1) (map Some d1)), map_length, Nat.sub_diag in EB. cbn [firstn] in EB. rewrite app_nil_r in EB.
    assert (LE : length d1 = length d2) by (unfold zlen in EZ; lia). rewrite LE in EB at 2. rewrite (firstn_app (length d2) (map Some d2)), map_length, Nat.sub_diag in EB. cbn [firstn] in EB. rewrite app_nil_r in EB.
    rewrite (firstn_all2 (map Some d2)) in EB by (rewrite map_length; lia). rewrite (firstn_all2 (map Some d1)) in EB by (rewrite map_length; lia). apply some_inj. exact EB.
Qed.
Lemma lookup_text_iff : forall U f s, nfc_ok U -> c_string s -> 32 * (zlen s + 1) < two64 -> 0 <= f < 2147483648 ->
  (forall d, lookup_text U (lab_of U) f s (inr d) <-> lookup_u8 U s f = Ok d) /\ (forall rc, lookup_text U (lab_of U) f s (inl rc) <-> lookup_u8 U s f = Fail rc).
Proof.
  intros U f s K C L F. pose proof (lookup_text_ok U f s K C L F) as T. pose proof (fun r1 r2 => lookup_text_fun U (lab_of U) f s r1 r2 K C L F) as FN.
  destruct (lookup_u8 U s f) as [d0|rc0| |]; [| |destruct T|destruct T]; split; intros x; split; intros H.
  - pose proof (FN _ _ T H) as E. injection E as ->. reflexivity.
  - injection H as <-. exact T.
  - pose proof (FN _ _ T H) as E. discriminate E.
  - discriminate H.
  - pose proof (FN _ _ T H) as E. discriminate E.
  - discriminate H.
  - pose proof (FN _ _ T H) as E. injection E as ->. reflexivity.
  - injection H as <-. exact T.
Qed.
