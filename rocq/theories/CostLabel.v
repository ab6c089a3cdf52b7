(** Bounds for the tests of a label: linear without the CONTEXTO rules. *)
From Coq Require Import String.
From Verif Require Import Base Uenv DataTypes Bsearch Tables Gentr46 Tr46Tables Tr46Map Utf8 Bidi Context Idna Puny PunyBase Lookup Cost CostPuny.
Local Open Scope Z_scope.

Section Label.
  Variable U : uenv.
  (** ZWNJ is not of joining type T. *)
  Hypothesis zwnj_not_T : ue_join U 0x200C <> UC_JOINING_TYPE_T.

  (** Elements before the first ZWNJ. *)
  Fixpoint lead0 (l : list Z) : Z :=
    match l with [] => 0 | c :: r => if c =? 0x200C then 0 else 1 + lead0 r end.
  Lemma lead0_nonneg : forall l, 0 <= lead0 l.
  Proof. induction l as [|c l IH]; cbn [lead0]; [lia|]. destruct (_ =? _); lia. Qed.
  Lemma joining_T : forall c, joining_eqb (ue_join U c) UC_JOINING_TYPE_T = true -> (c =? 0x200C) = false.
  Proof.
    intros c H. destruct (c =? 0x200C) eqn:E; [|reflexivity]. apply Z.eqb_eq in E. subst c. exfalso. apply zwnj_not_T.
    unfold joining_eqb in H. destruct (ue_join U 0x200C); cbn in H; congruence.
  Qed.
  Lemma fwd_le : forall l, T_zwnj_fwd U l <= lead0 l + 1.
  Proof.
    induction l as [|c r IH]; cbn [T_zwnj_fwd lead0]; [lia|]. cbv zeta. pose proof (lead0_nonneg r).
    destruct (_ || _); [destruct (_ =? _); lia|]. destruct r as [|c' r']; [destruct (_ =? _); cbn [lead0]; lia|].
    destruct (joining_eqb (ue_join U c) UC_JOINING_TYPE_T) eqn:J; [rewrite (joining_T _ J); lia|destruct (c =? 0x200C); lia].
  Qed.
  Lemma rd_at : forall rp c suf, rd (rev rp ++ c :: suf) (zlen rp) = Ok c.
  Proof.
    intros rp c suf. unfold rd, zlen. destruct (Z.of_nat (length rp) <? 0) eqn:E; [apply Z.ltb_lt in E; lia|]. rewrite Nat2Z.id.
    rewrite nth_error_app2; rewrite rev_length; [|lia]. rewrite Nat.sub_diag. reflexivity.
  Qed.
  Lemma back_le : forall rp c suf, T_zwnj_back U (rev (c :: rp) ++ suf) (length rp) <= lead0 (c :: rp) + 1.
  Proof.
    induction rp as [|c' rp IH]; intros c suf.
    - cbn [length T_zwnj_back]. change (rev [c] ++ suf) with (rev [] ++ c :: suf).
      change (Z.of_nat 0) with (zlen (@nil Z)). rewrite rd_at. cbn [after]. pose proof (lead0_nonneg [c]). destruct (_ || _); lia.
    - cbn [length T_zwnj_back]. change (rev (c :: c' :: rp)) with (rev (c' :: rp) ++ [c]). rewrite <- app_assoc. cbn [app].
      change (Z.of_nat (S (length rp))) with (zlen (c' :: rp)). rewrite rd_at. cbn [after].
      pose proof (lead0_nonneg (c :: c' :: rp)). destruct (_ || _); [lia|].
      destruct (joining_eqb (ue_join U c) UC_JOINING_TYPE_T) eqn:J; [|lia].
      specialize (IH c' (c :: suf)). change (lead0 (c :: c' :: rp)) with (if c =? 0x200C then 0 else 1 + lead0 (c' :: rp)). rewrite (joining_T _ J). lia.
  Qed.

  Lemma contextj_step : forall rp c suf,
    T_contextj_rule U (rev rp ++ c :: suf) (zlen rp) <= 12 + (if c =? 0x200C then lead0 rp + 1 + (lead0 suf + 1) else 0).
  Proof.
    intros rp c suf. unfold T_contextj_rule. cbv zeta. pose proof (lead0_nonneg rp). pose proof (lead0_nonneg suf).
    destruct (zlen _ =? 0); [destruct (c =? _); lia|]. rewrite rd_at. cbn [after]. pose proof (property_le c).
    match goal with |- T_property c + ?r <= 12 + ?b => assert (K : r <= b); [|lia] end.
    apply after_le; [destruct (c =? _); lia|]. intros j _. destruct (negb j); [destruct (c =? _); lia|]. destruct (c =? 0x200C); [|lia].
    apply after_le; [lia|]. intros v _. destruct v; [lia|]. destruct (_ || _) eqn:E; [lia|]. apply orb_false_iff in E. destruct E as [E _]. apply Z.eqb_neq in E.
    destruct rp as [|c' rp]; [rewrite zlen_nil in E; lia|].
    replace (Z.to_nat (zlen (c' :: rp) - 1)) with (length rp) by (unfold zlen; cbn [length]; lia).
    pose proof (back_le rp c' (c :: suf)) as B.
    assert (F : after (zwnj_back U (rev (c' :: rp) ++ c :: suf) (length rp)) (fun _ => T_zwnj_fwd U (skipn (Z.to_nat (zlen (c' :: rp) + 1)) (rev (c' :: rp) ++ c :: suf))) <= lead0 suf + 1); [|lia].
    apply after_le; [lia|]. intros _ _.
    replace (skipn (Z.to_nat (zlen (c' :: rp) + 1)) (rev (c' :: rp) ++ c :: suf)) with suf; [apply fwd_le|].
    replace (Z.to_nat (zlen (c' :: rp) + 1)) with (length (rev (c' :: rp) ++ [c])) by (rewrite app_length, rev_length; unfold zlen; cbn [length]; lia).
    change (c :: suf) with ([c] ++ suf). rewrite app_assoc, skipn_app, skipn_all, Nat.sub_diag. reflexivity.
  Qed.
  Lemma contextj_sum : forall suf rp f,
    T_each_pos f (T_contextj_rule U (rev rp ++ suf)) (length suf) (zlen rp) <= 15 * zlen suf + lead0 rp - lead0 suf.
  Proof.
    induction suf as [|c suf IH]; intros rp f; cbn [length T_each_pos]; pose proof (lead0_nonneg rp).
    { rewrite zlen_nil. cbn [lead0]. lia. }
    pose proof (contextj_step rp c suf) as S. specialize (IH (c :: rp) f). cbn [rev] in IH. rewrite <- app_assoc in IH. cbn [app] in IH.
    rewrite zlen_cons in IH. replace (1 + zlen rp) with (zlen rp + 1) in IH by lia. rewrite zlen_cons. pose proof (zlen_nonneg _ suf). pose proof (lead0_nonneg suf).
    assert (G : lead0 suf <= zlen suf) by (clear; induction suf as [|x s I]; cbn [lead0]; rewrite ?zlen_nil, ?zlen_cons; [lia|destruct (_ =? _); pose proof (zlen_nonneg _ s); lia]).
    match goal with |- 1 + _ + ?r <= _ => assert (K : r <= 15 * zlen suf + lead0 (c :: rp) - lead0 suf) end.
    { cbn [lead0]. apply after_le; [destruct (c =? _); lia|]. intros _ _. exact IH. }
    cbn [lead0] in *. destruct (c =? 0x200C); lia.
  Qed.
  Lemma contextj_le : forall l f, T_each_pos f (T_contextj_rule U l) (length l) 0 <= 15 * zlen l.
  Proof. intros l f. pose proof (contextj_sum l [] f) as H. cbn [rev app lead0] in H. rewrite zlen_nil in H. pose proof (lead0_nonneg l). lia. Qed.
End Label.

Lemma each_le : forall f T K l, 0 <= K -> (forall c, T c <= K) -> T_each f T l <= (1 + K) * zlen l.
Proof.
  intros f T K l H0 H. induction l as [|c r IH]; cbn [T_each]; rewrite ?zlen_nil, ?zlen_cons; [lia|].
  pose proof (zlen_nonneg _ r). specialize (H c). assert (after (f c) (fun _ => T_each f T r) <= (1 + K) * zlen r) by (apply after_le; [nia|auto]). lia.
Qed.
Lemma each_pos_le : forall f T K n i, 0 <= K -> (forall c, T c <= K) -> T_each_pos f T n i <= (1 + K) * Z.of_nat n.
Proof.
  intros f T K n i H0 H. revert i. induction n as [|n IH]; intros i; cbn [T_each_pos]; [lia|].
  specialize (H i). assert (after (f i) (fun _ => T_each_pos f T n (i + 1)) <= (1 + K) * Z.of_nat n) by (apply after_le; [nia|auto]). lia.
Qed.
Lemma disallowed1_le : forall what c, T_disallowed1 what c <= 25.
Proof.
  intros what c. unfold T_disallowed1. pose proof (property_le c). pose proof (get_idna_map_le c).
  match goal with |- _ + ?r <= _ => assert (r <= 13); [|lia] end. apply after_le; [lia|]. intros d _. destruct (_ && _); lia.
Qed.
Lemma bidi_le : forall U l, 0 <= T_bidi U l <= 2 * zlen l.
Proof.
  intros U l. unfold T_bidi. pose proof (existsb_le _ (is_rtl U) l). pose proof (zlen_nonneg _ l). destruct (negb _); [lia|]. destruct l as [|c r]; [rewrite zlen_nil in *; lia|].
  pose proof (existsb_le _ (stops U ltr_classes) r). pose proof (existsb_le _ (stops U rtl_classes) r). rewrite zlen_cons in *.
  destruct (ue_bidi U c); lia.
Qed.
Lemma contexto_rule_le : forall U l pos, T_contexto_rule U l pos <= 12 + zlen l.
Proof.
  intros U l pos. unfold T_contexto_rule. pose proof (zlen_nonneg _ l). apply after_le; [lia|]. intros cp _. pose proof (property_le cp).
  match goal with |- _ + ?r <= _ => assert (r <= zlen l); [|lia] end. apply after_le; [lia|]. intros o _.
  destruct (negb o); [lia|]. destruct (_ || _); [lia|].
  destruct (is_arabic_indic cp); [pose proof (existsb_le _ is_ext_arabic_indic l); lia|].
  destruct (is_ext_arabic_indic cp); [pose proof (existsb_le _ is_arabic_indic l); lia|].
  destruct (cp =? _); [|lia].
  match goal with |- T_existsb ?f l <= _ => pose proof (existsb_le _ f l); lia end.
Qed.
Lemma when_le : forall b T K, 0 <= K -> T <= K -> T_when b T <= K.
Proof. intros [] T K; cbn [T_when]; lia. Qed.

(** The step of a chain of tests. *)
Lemma chain : forall A (m : out A) T k B K, 0 <= K -> T <= B -> (forall a, k a <= K) -> T + after m k <= B + K.
Proof. intros A m T k B K H0 H H1. assert (after m k <= K) by (apply after_le; auto). lia. Qed.
Lemma chain0 : forall A (m : out A) k K, 0 <= K -> (forall a, k a <= K) -> after m k <= K.
Proof. intros A m k K H H1. apply after_le; auto. Qed.

Lemma label_test_gen : forall U what l, ue_join U 0x200C <> UC_JOINING_TYPE_T ->
  T_label_test U what l <= 111 * zlen l + (if has what TEST_CONTEXTO_RULE then (13 + zlen l) * zlen l else 0).
Proof.
  intros U what l HT. unfold T_label_test. set (n := zlen l). assert (N : 0 <= n) by apply zlen_nonneg.
  set (Q := if has what TEST_CONTEXTO_RULE then (13 + n) * n else 0). assert (Q0 : 0 <= Q) by (unfold Q; destruct (has _ _); nia).
  replace (111 * n + Q) with (n + (26 * n + (13 * n + (15 * n + (13 * n + (13 * n + (Q + (13 * n + (2 * n + 15 * n))))))))) by lia.
  apply chain; [lia| |intros _].
  { apply when_le; [lia|]. apply after_le; [lia|]. intros p _. apply list_eqb_le. }
  do 3 (apply chain0; [lia|intros _]).
  apply chain; [lia| |intros _]. { apply when_le; [lia|]. apply (each_le _ _ 25); [lia|apply disallowed1_le]. }
  apply chain; [lia| |intros _]. { apply when_le; [lia|]. apply (each_le _ _ 12); [lia|apply property_le]. }
  apply chain; [lia| |intros _]. { apply when_le; [lia|]. apply contextj_le, HT. }
  apply chain; [lia| |intros _]. { apply when_le; [lia|]. apply (each_le _ _ 12); [lia|apply property_le]. }
  apply chain; [lia| |intros _]. { apply when_le; [lia|]. apply (each_le _ _ 12); [lia|apply property_le]. }
  apply chain; [lia| |intros _].
  { unfold Q, T_when. destruct (has _ _); [|lia]. pose proof (each_pos_le (contexto_rule U l) (T_contexto_rule U l) (12 + n) (length l) 0 ltac:(lia) (contexto_rule_le U l)) as E.
    change (Z.of_nat (length l)) with n in E. lia. }
  apply chain; [lia| |intros _]. { apply when_le; [lia|]. apply (each_le _ _ 12); [lia|apply property_le]. }
  apply chain; [lia| |intros _]. { apply when_le; [lia|]. apply bidi_le. }
  apply when_le; [lia|]. pose proof (each_le test_dot1 (fun _ => 0) 0 l ltac:(lia) ltac:(intros; lia)) as D.
  pose proof (each_le (test_status1 what) T_get_idna_map 13 l ltac:(lia) get_idna_map_le) as S. fold n in D, S.
  match goal with |- _ + ?r <= _ => assert (r <= 14 * n); [|lia] end. apply after_le; [lia|]. intros _ _. lia.
Qed.
Lemma label_test_le : forall U what l, ue_join U 0x200C <> UC_JOINING_TYPE_T -> has what TEST_CONTEXTO_RULE = false -> T_label_test U what l <= 111 * zlen l.
Proof. intros U what l HT H. pose proof (label_test_gen U what l HT) as G. rewrite H in G. lia. Qed.

Lemma isNFC_le : forall U l skip last, T_isNFC_loop U l skip last <= 8 * zlen l.
Proof.
  intros U. induction l as [|c r IH]; intros skip last; cbn [T_isNFC_loop]; rewrite ?zlen_nil, ?zlen_cons; [lia|].
  pose proof (zlen_nonneg _ r). destruct skip; [specialize (IH false last); lia|]. cbv zeta. destruct (_ && _); [lia|].
  pose proof (get_nfcqc_le c). match goal with |- 1 + (_ + ?k) <= _ => assert (k <= 8 * zlen r); [|lia] end.
  apply after_le; [lia|]. intros [q|] _; [destruct (negb _); [lia|]|]; apply IH.
Qed.
Lemma u8_to_u32_len : forall n s l, (length s <= n)%nat -> u8_to_u32 s = Some l -> zlen l <= zlen s.
Proof.
  assert (OC : forall x o l, ocons x o = Some l -> exists m, o = Some m /\ l = x :: m) by (intros x [m|] l H; [injection H as <-; eauto|discriminate]).
  induction n as [|n IH]; intros s l H E.
  { destruct s; [|cbn in H; lia]. injection E as <-. lia. }
  destruct s as [|c s]; [injection E as <-; lia|]. cbn [length] in H. cbn [u8_to_u32] in E.
  destruct (c <? 128). { apply OC in E. destruct E as (m & E & ->). apply IH in E; [|lia]. rewrite !zlen_cons. lia. }
  destruct (c <? 194); [discriminate|]. destruct (c <? 224).
  { destruct s as [|c1 s]; [discriminate|]. destruct (cont c1); [|discriminate]. apply OC in E. destruct E as (m & E & ->). apply IH in E; [|cbn [length] in H; lia]. rewrite !zlen_cons. lia. }
  destruct (c <? 240).
  { destruct s as [|c1 [|c2 s]]; try discriminate. destruct (_ && _); [|discriminate]. apply OC in E. destruct E as (m & E & ->). apply IH in E; [|cbn [length] in H; lia]. rewrite !zlen_cons. lia. }
  destruct (c <? 245); [|discriminate].
  destruct s as [|c1 [|c2 [|c3 s]]]; try discriminate. destruct (_ && _); [|discriminate]. apply OC in E. destruct E as (m & E & ->). apply IH in E; [|cbn [length] in H; lia]. rewrite !zlen_cons. lia.
Qed.
Lemma u32_to_u8_len : forall l s, u32_to_u8 l = Some s -> zlen s <= 4 * zlen l.
Proof.
  induction l as [|c r IH]; intros s E; cbn [u32_to_u8] in E; [injection E as <-; rewrite !zlen_nil; lia|].
  destruct (u8_uctomb c) as [b|] eqn:B; [|discriminate]. destruct (u32_to_u8 r) as [t|]; [|discriminate]. injection E as <-. rewrite zlen_app, zlen_cons. specialize (IH t eq_refl).
  assert (zlen b <= 4); [|lia]. unfold u8_uctomb in B.
  repeat match type of B with (if ?x then _ else _) = _ => destruct x; try discriminate end; injection B as <-; rewrite ?zlen_cons, zlen_nil; lia.
Qed.
Lemma conv_ok : forall A (o : option A) rc a, conv o rc = Ok a -> o = Some a.
Proof. intros A [x|] rc a H; cbn in H; congruence. Qed.

Definition at_most_fourfold (U : uenv) : Prop := forall l p, ue_nfc U l = Some p -> zlen p <= 4 * zlen l.
Lemma u8_to_u32_nfc_le : forall U s b, T_u8_to_u32_nfc U s b <= 9 * zlen s.
Proof.
  intros U s b. unfold T_u8_to_u32_nfc. pose proof (zlen_nonneg _ s). match goal with |- _ + ?k <= _ => assert (k <= 8 * zlen s); [|lia] end.
  apply after_le; [lia|]. intros p E. apply conv_ok in E. apply (u8_to_u32_len (length s)) in E; [|lia]. destruct b; [|lia]. pose proof (isNFC_le U p false 0). lia.
Qed.
Lemma u8_to_u32_nfc_len : forall U s b p, at_most_fourfold U -> u8_to_u32_nfc U s b = Ok p -> zlen p <= 4 * zlen s.
Proof.
  intros U s b p F E. unfold u8_to_u32_nfc in E. apply bind_ok in E. destruct E as (q & Eq & E). apply conv_ok in Eq. apply (u8_to_u32_len (length s)) in Eq; [|lia].
  pose proof (zlen_nonneg _ q). destruct b; [|injection E as <-; lia]. apply bind_ok in E. destruct E as (k & _ & E).
  destruct (k =? 0); [|injection E as <-; lia]. apply conv_ok in E. apply F in E. lia.
Qed.
