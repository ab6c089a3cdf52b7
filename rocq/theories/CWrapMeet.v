(** The functions around idn2_lookup_u8: what the text computes, in terms of the specification. *)
From Coq Require Import String.
From Verif Require Import Base PunyBase Uenv DataTypes SpecUtf8 SpecNfc SpecLookup SpecToAscii SpecRefusal Utf8 Utf8Proofs Idna Lookup LookupTr46 LookupCodes LookupTop NonZero NfcProofs Api ApiProofs CostLabel
  CLang CLogic CLeaf CLookup CLookupTop CLookupCases CLabelText CWrap SpecCPuny SpecCLookup SpecCRegister SpecCWrap CRegisterTop CWrapRun CWrapTop.
Local Open Scope string_scope.
Local Open Scope list_scope.
Local Open Scope Z_scope.
Arguments wrap_program : simpl never.

Lemma until_upto0 : forall l v, until_zero l v -> v = upto0 l.
Proof. intros l v (N & [-> | (r & ->)]); symmetry; [now apply upto0_id|now apply upto0_app]. Qed.
Lemma conv_cut : forall l v s, u32_to_u8 l = Some s -> until_zero l v -> utf8 v (upto0 s).
Proof.
  intros l v s E (N & [-> | (r & ->)]).
  - assert (T : utf8 v s) by now apply u32_to_u8_iff. pose proof (conv_str v s N T) as Q. rewrite upto0_term in Q. rewrite Q. exact T.
  - rewrite u32_to_u8_app in E. destruct (u32_to_u8 v) as [x|] eqn:EV; [|discriminate E]. cbn [u32_to_u8] in E. destruct (u32_to_u8 r) as [y|] eqn:ER; [|discriminate E].
    assert (T : utf8 v x) by now apply u32_to_u8_iff. apply (f_equal (fun o => match o with Some z => z | None => [] end)) in E. cbn in E. pose proof (conv_str v x N T) as Q. rewrite upto0_term in Q.
    assert (X0 : ~ In 0 x) by (rewrite <- Q; apply upto0_no0). subst s. rewrite upto0_app by exact X0. exact T.
Qed.
Lemma utf8_inj : forall v b c, utf8 v b -> utf8 v c -> b = c.
Proof. intros v b c A B. apply u32_to_u8_iff in A, B. rewrite A in B. exact (f_equal (fun o => match o with Some z => z | None => [] end) B). Qed.

(** * _idn2_u8_to_u32_nfc *)
Section Nfc.
  Variable U : uenv.
  Variables look four : list Z -> Z -> Z + list Z.
  Variable from : list Z -> option (list Z).
  Hypothesis FF : at_most_fourfold U.
  Lemma nfc_exists : forall nfc s, 4 * zlen s < 9223372036854775808 -> exists r, nfc_text U look four from nfc s r /\ forall r', nfc_text U look four from nfc s r' -> r' = r.
  Proof.
    intros nfc s LS. pose proof (nfc_iff U look four from FF nfc s LS) as I. pose proof (LookupProofs.u8_nfc_safe U s (negb (nfc =? 0))) as SF.
    destruct (u8_to_u32_nfc U s (negb (nfc =? 0))) as [t|rc| |] eqn:E; [| |destruct SF..].
    - exists (inr t). assert (T : nfc_text U look four from nfc s (inr t)) by (apply I; reflexivity). split; [exact T|]. intros r' H. exact (nfc_fun U look four from nfc s _ _ H T).
    - exists (inl rc). assert (T : nfc_text U look four from nfc s (inl rc)) by (apply I; reflexivity). split; [exact T|]. intros r' H. exact (nfc_fun U look four from nfc s _ _ H T).
  Qed.
  Lemma nfc_done : forall nfc s q, Forall (fun b => 0 <= b <= 255) s -> 4 * zlen s < 9223372036854775808 ->
    (nfc_text U look four from nfc s (inr q) <-> exists p, utf8 p s /\ ((nfc = 0 \/ qc_yes (ue_ccc U) 0 (visited false p)) /\ q = p \/ nfc <> 0 /\ ~ qc_yes (ue_ccc U) 0 (visited false p) /\ ue_nfc U p = Some q)).
  Proof.
    intros nfc s q BS LS. rewrite (nfc_iff U look four from FF nfc s LS (inr q)). unfold u8_to_u32_nfc. split.
    - destruct (u8_to_u32 s) as [p|] eqn:E; cbn [Utf8.conv bind]; [|discriminate]. intros H. exists p. split; [apply u8_to_u32_iff; assumption|]. destruct (Z.eqb_spec nfc 0) as [Q|Q]; cbn [negb] in H.
      + left. split; [now left|]. now injection H.
      + destruct (isNFC_spec U p) as [(K & Y)|(K & Y)]; rewrite K in H; cbn in H.
        * left. split; [now right|]. now injection H.
        * right. split; [exact Q|]. split; [exact Y|]. destruct (ue_nfc U p) as [x|]; cbn in H; [|discriminate H]. injection H as ->. reflexivity.
    - intros (p & T & H). apply u8_to_u32_iff in T; [|exact BS]. rewrite T. cbn [Utf8.conv bind]. destruct (Z.eqb_spec nfc 0) as [Q|Q]; cbn [negb].
      + destruct H as [(_ & ->)|(N & _)]; [reflexivity|contradiction].
      + destruct (isNFC_spec U p) as [(K & Y)|(K & Y)]; rewrite K; cbn.
        * destruct H as [(_ & ->)|(_ & N & _)]; [reflexivity|contradiction].
        * destruct H as [([N|N] & _)|(_ & _ & ->)]; [contradiction..|reflexivity].
  Qed.
  Lemma nfc_failed : forall nfc s rc, Forall (fun b => 0 <= b <= 255) s -> 4 * zlen s < 9223372036854775808 ->
    (nfc_text U look four from nfc s (inl rc) <-> (forall p, ~ utf8 p s) /\ rc = IDN2_ENCODING_ERROR \/ exists p, utf8 p s /\ nfc <> 0 /\ ~ qc_yes (ue_ccc U) 0 (visited false p) /\ ue_nfc U p = None /\ rc = IDN2_NFC).
  Proof.
    intros nfc s rc BS LS. rewrite (nfc_iff U look four from FF nfc s LS (inl rc)). unfold u8_to_u32_nfc. split.
    - destruct (u8_to_u32 s) as [p|] eqn:E; cbn [Utf8.conv bind].
      + intros H. right. exists p. split; [apply u8_to_u32_iff; assumption|]. destruct (Z.eqb_spec nfc 0) as [Q|Q]; cbn [negb] in H; [discriminate H|]. split; [exact Q|]. destruct (isNFC_spec U p) as [(K & Y)|(K & Y)]; rewrite K in H; cbn in H; [discriminate H|].
        split; [exact Y|]. destruct (ue_nfc U p); cbn in H; [discriminate H|]. injection H as <-. auto.
      + intros H. left. injection H as <-. split; [|reflexivity]. intros p T. apply u8_to_u32_iff in T; [|exact BS]. rewrite E in T. discriminate T.
    - intros [(N & ->)|(p & T & Q & Y & EN & ->)].
      + destruct (u8_to_u32 s) as [p|] eqn:E; [exfalso; apply (N p); apply u8_to_u32_iff; assumption|reflexivity].
      + apply u8_to_u32_iff in T; [|exact BS]. rewrite T. cbn [Utf8.conv bind]. replace (nfc =? 0) with false by lia. cbn [negb]. destruct (isNFC_spec U p) as [(K & Y')|(K & Y')]; rewrite K; cbn; [contradiction|]. rewrite EN. reflexivity.
  Qed.
End Nfc.

(** * lookup.c *)
Section Meet.
  Variable U : uenv.
  Variables look four : list Z -> Z -> Z + list Z.
  Variable from : list Z -> option (list Z).
  Variable lab : list Z -> Z -> Z + list Z.
  Hypothesis K : nfc_ok U.
  Hypothesis LI : label_is U lab.
  Hypothesis LK : lookup_is U lab look.
  Lemma look_accepts : forall s f t, c_string s -> 32 * (zlen s + 1) < two64 -> 0 <= f < 2147483648 -> (look s f = inr t <-> accepts U f s t).
  Proof.
    intros s f t C L F. rewrite <- (whole_accepts U lab K LI f s t C L F). rewrite (proj1 (whole_ok U lab K LI f s C L F) t), (look_model U look lab K LI LK s f C L F).
    destruct (look s f); split; intros E; try discriminate E; injection E as ->; reflexivity.
  Qed.
  Lemma look_refuses : forall s f rc, c_string s -> 32 * (zlen s + 1) < two64 -> 0 <= f < 2147483648 -> opt_no_tr46 f = false \/ zlen s <= 1000000000 -> (look s f = inl rc <-> refuses U f s rc).
  Proof.
    intros s f rc C L F Q. rewrite <- (whole_refuses U lab K LI f s rc C L F Q). rewrite (proj2 (whole_ok U lab K LI f s C L F) rc), (look_model U look lab K LI LK s f C L F).
    destruct (look s f); split; intros E; try discriminate E; injection E as ->; reflexivity.
  Qed.
  Lemma conv_accepts : forall f l v t, zlen l < 100000000000000000 -> 0 <= f < 2147483648 -> until_zero l v -> (conv_result look l f = inr t <-> (exists s, utf8 l s) /\ exists b, utf8 v b /\ accepts U f b t).
  Proof.
    intros f l v t LL F UZ. unfold conv_result. destruct (u32_to_u8 l) as [s|] eqn:E.
    - destruct (conv_string l s LL E) as (C & L). rewrite (look_accepts _ f t C L F). pose proof (conv_cut _ _ _ E UZ) as T. split.
      + intros A. split; [exists s; now apply u32_to_u8_iff|]. exists (upto0 s). auto.
      + intros (_ & b & TB & A). rewrite (utf8_inj _ _ _ T TB). exact A.
    - split; [discriminate|]. intros ((s & T) & _). apply u32_to_u8_iff in T. rewrite E in T. discriminate T.
  Qed.
  Lemma conv_refuses : forall f l v rc, zlen l < 100000000000000000 -> 0 <= f < 2147483648 -> opt_no_tr46 f = false \/ zlen l <= 250000000 -> until_zero l v ->
    (conv_result look l f = inl rc <-> (~ exists s, utf8 l s) /\ rc = IDN2_ENCODING_ERROR \/ (exists s, utf8 l s) /\ exists b, utf8 v b /\ refuses U f b rc).
  Proof.
    intros f l v rc LL F Q UZ. unfold conv_result. destruct (u32_to_u8 l) as [s|] eqn:E.
    - destruct (conv_string l s LL E) as (C & L). pose proof (u32_to_u8_len _ _ E) as LS. pose proof (upto0_zlen s) as L0. rewrite (look_refuses _ f rc C L F) by (destruct Q; [left; assumption|right; lia]). pose proof (conv_cut _ _ _ E UZ) as T. assert (X : utf8 l s) by now apply u32_to_u8_iff. split.
      + intros A. right. split; [eauto|]. exists (upto0 s). auto.
      + intros [(N & _)|(_ & b & TB & A)]; [exfalso; eauto|]. rewrite (utf8_inj _ _ _ T TB). exact A.
    - assert (X : ~ exists s, utf8 l s) by (intros (s & T); apply u32_to_u8_iff in T; rewrite E in T; discriminate T). split.
      + intros H. left. injection H as <-. auto.
      + intros [(_ & ->)|(H & _)]; [reflexivity|contradiction].
  Qed.
  (** idn2_to_ascii_4i2 *)
  Lemma i2_exists : forall f l, zlen l < 100000000000000000 -> 0 <= f < 2147483648 -> exists r, text_4i2 U look four from f l r /\ forall r', text_4i2 U look four from f l r' -> r' = r.
  Proof. intros f l LL F. pose proof (text_4i2_iff U look four from lab K LI LK f l LL F) as I. exists (conv_result look l f). split; [now apply I|]. intros r' H. apply I in H. now symmetry. Qed.
  Lemma i2_accepts : forall f l v t, zlen l < 100000000000000000 -> 0 <= f < 2147483648 -> until_zero l v -> (text_4i2 U look four from f l (inr t) <-> (exists s, utf8 l s) /\ exists b, utf8 v b /\ accepts U f b t).
  Proof. intros f l v t LL F UZ. rewrite (text_4i2_iff U look four from lab K LI LK f l LL F). now apply conv_accepts. Qed.
  Lemma i2_refuses : forall f l v rc, zlen l < 100000000000000000 -> 0 <= f < 2147483648 -> opt_no_tr46 f = false \/ zlen l <= 250000000 -> until_zero l v ->
    (text_4i2 U look four from f l (inl rc) <-> (~ exists s, utf8 l s) /\ rc = IDN2_ENCODING_ERROR \/ (exists s, utf8 l s) /\ exists b, utf8 v b /\ refuses U f b rc).
  Proof. intros f l v rc LL F Q UZ. rewrite (text_4i2_iff U look four from lab K LI LK f l LL F). now apply conv_refuses. Qed.
  (** idn2_to_ascii_4z *)
  Lemma z_exists : forall f l, ~ In 0 l -> zlen l < 100000000000000000 -> 0 <= f < 2147483648 -> exists r, text_4z U look four from f l r /\ forall r', text_4z U look four from f l r' -> r' = r.
  Proof. intros f l N LL F. pose proof (text_4z_iff U look four from lab K LI LK f l N LL F) as I. exists (conv_result look l f). split; [now apply I|]. intros r' H. apply I in H. now symmetry. Qed.
  Lemma z_accepts : forall f l t, ~ In 0 l -> zlen l < 100000000000000000 -> 0 <= f < 2147483648 -> (text_4z U look four from f l (inr t) <-> exists b, utf8 l b /\ accepts U f b t).
  Proof.
    intros f l t N LL F. rewrite (text_4z_iff U look four from lab K LI LK f l N LL F). rewrite (conv_accepts f l l t LL F) by (split; auto). split; [intros (_ & H); exact H|]. intros (b & T & A). split; eauto.
  Qed.
  Lemma z_refuses : forall f l rc, ~ In 0 l -> zlen l < 100000000000000000 -> 0 <= f < 2147483648 -> opt_no_tr46 f = false \/ zlen l <= 250000000 ->
    (text_4z U look four from f l (inl rc) <-> (~ exists b, utf8 l b) /\ rc = IDN2_ENCODING_ERROR \/ exists b, utf8 l b /\ refuses U f b rc).
  Proof.
    intros f l rc N LL F Q. rewrite (text_4z_iff U look four from lab K LI LK f l N LL F). rewrite (conv_refuses f l l rc LL F Q) by (split; auto). split; (intros [H|H]; [now left|right]); [apply H|]. destruct H as (b & T & A). split; eauto.
  Qed.
  (** idn2_lookup_ul *)
  Section Ul.
    Lemma ul_exists : forall f s, ~ In 0 s -> (forall b, from s = Some b -> c_string b /\ 32 * (zlen b + 1) < two64) -> 0 <= f < 2147483648 -> exists r, ul_text U look four from f s r /\ forall r', ul_text U look four from f s r' -> r' = r.
    Proof. intros f s N FB F. pose proof (ul_iff U look four from lab K LI LK f s N FB F) as I. exists (ul_result look from s f). split; [now apply I|]. intros r' H. apply I in H. now symmetry. Qed.
    Lemma ul_accepts : forall f s t, ~ In 0 s -> (forall b, from s = Some b -> c_string b /\ 32 * (zlen b + 1) < two64) -> 0 <= f < 2147483648 -> (ul_text U look four from f s (inr t) <-> exists b, from s = Some b /\ accepts U (Z.lor f IDN2_NFC_INPUT) b t).
    Proof.
      intros f s t N FB F. rewrite (ul_iff U look four from lab K LI LK f s N FB F). unfold ul_result. destruct (from s) as [b|] eqn:E.
      - destruct (FB b eq_refl) as (C & L). rewrite (look_accepts b _ t C L (flag_or f F)). split; [intros A; exists b; auto|]. intros (c & Q & A). injection Q as ->. exact A.
      - split; [discriminate|]. intros (b & Q & _). discriminate Q.
    Qed.
    Lemma ul_refuses : forall f s rc, ~ In 0 s -> (forall b, from s = Some b -> c_string b /\ 32 * (zlen b + 1) < two64) -> 0 <= f < 2147483648 -> opt_no_tr46 f = false \/ (forall b, from s = Some b -> zlen b <= 1000000000) ->
      (ul_text U look four from f s (inl rc) <-> from s = None /\ rc = IDN2_ICONV_FAIL \/ exists b, from s = Some b /\ refuses U (Z.lor f IDN2_NFC_INPUT) b rc).
    Proof.
      intros f s rc N FB F Q. rewrite (ul_iff U look four from lab K LI LK f s N FB F). unfold ul_result. destruct (from s) as [b|] eqn:E.
      - destruct (FB b eq_refl) as (C & L). rewrite (look_refuses b _ rc C L (flag_or f F)).
        + split; [intros A; right; exists b; auto|]. intros [(X & _)|(c & X & A)]; [discriminate X|]. injection X as ->. exact A.
        + destruct Q as [Q|Q]; [left|right; auto]. unfold opt_no_tr46 in *. rewrite Z.lor_spec, Q. reflexivity.
      - split; [intros X; left; injection X as <-; auto|]. intros [(_ & ->)|(b & X & _)]; [reflexivity|discriminate X].
    Qed.
  End Ul.
  (** idn2_to_ascii_4i *)
  Section FourI.
    Hypothesis FO : forall l f, zlen l < 100000000000000000 -> 0 <= f < 2147483648 -> text_4i2 U look four from f l (four l f).
    Lemma four_good : forall l f, zlen l < 100000000000000000 -> 0 <= f < 2147483648 -> match four l f with inl rc => rc <> 0 | inr t => ~ In 0 t /\ zlen t <= 254 end.
    Proof.
      intros l f LL F. pose proof (FO l f LL F) as T. apply (text_4i2_iff U look four from lab K LI LK f l LL F) in T. rewrite <- T. unfold conv_result. destruct (u32_to_u8 l) as [s|] eqn:E; [|unfold IDN2_ENCODING_ERROR; lia].
      destruct (conv_string l s LL E) as (C & L). pose proof (look_good U look lab K LI LK _ f C L F) as H. destruct (look (upto0 s) f); [exact H|]. destruct H as (A & B). split; [|exact B]. intros Q. apply (proj1 (Forall_forall _ _) A) in Q. lia.
    Qed.
    Lemma j_text : forall f l has_ arr, zlen l < 100000000000000000 -> 0 <= f < 2147483648 -> (has_ = true -> 63 <= zlen arr) -> text_4i U look four from f l has_ arr (four_code four l f) (four_array four l f has_ arr).
    Proof.
      intros f l has_ arr LL F LA rest out LO. destruct (j_runs U look four from l f has_ rest out arr (four_good l f LL F) LO LA) as (st & o' & RR & AR). exists o'. eapply wr_of_runs; [reflexivity|exact RR|exact AR].
    Qed.
    Lemma four_eq : forall l f r, zlen l < 100000000000000000 -> 0 <= f < 2147483648 -> text_4i2 U look four from f l r -> four l f = r.
    Proof. intros l f r LL F T. destruct (i2_exists f l LL F) as (x & _ & X). rewrite (X _ T). apply X, FO; assumption. Qed.
    Lemma j_both : forall f l has_ arr, zlen l < 100000000000000000 -> 0 <= f < 2147483648 -> (has_ = true -> 63 <= zlen arr) ->
      (forall rc, text_4i2 U look four from f l (inl rc) -> text_4i U look four from f l has_ arr rc arr) /\
      (forall t, text_4i2 U look four from f l (inr t) -> 63 < zlen t -> text_4i U look four from f l has_ arr IDN2_TOO_BIG_DOMAIN arr) /\
      (forall t, text_4i2 U look four from f l (inr t) -> zlen t <= 63 -> text_4i U look four from f l has_ arr 0 (if has_ then in_front t arr else arr)).
    Proof.
      intros f l has_ arr LL F LA. pose proof (j_text f l has_ arr LL F LA) as T. unfold four_code, four_array in T. split; [|split]; intros x H; rewrite (four_eq l f _ LL F H) in T; [exact T|intros B..].
      - replace (63 <? zlen x) with true in T by lia. replace (zlen x <=? 63) with false in T by lia. rewrite Bool.andb_false_r in T. exact T.
      - replace (63 <? zlen x) with false in T by lia. replace (zlen x <=? 63) with true in T by lia. rewrite Bool.andb_true_r in T. exact T.
    Qed.
    Lemma j_once : forall f l has_ arr rc1 a1 rc2 a2, text_4i U look four from f l has_ arr rc1 a1 -> text_4i U look four from f l has_ arr rc2 a2 -> rc1 = rc2 /\ a1 = a2.
    Proof.
      intros f l has_ arr rc1 a1 rc2 a2 A B. assert (L : 256 <= zlen (repeat (@None Z) 256)) by (rewrite zlen_none; lia). destruct (A [] _ L) as (o1 & A1), (B [] _ L) as (o2 & B1). destruct (wr_fun U look four from _ _ _ _ _ _ _ A1 B1) as (C & M). split; [exact C|].
      exact (f_equal (fun m => match m with [_; _; (_, (_, a))] => a | _ => [] end) M).
    Qed.
  End FourI.
  (** malloc in idn2_to_ascii_4i2 *)
  Lemma size_text : forall n, 0 <= n -> n + 1 < 4611686018427387904 -> text_4i2_size U look four from n (4 * (n + 1)).
  Proof. intros n N0 N1 x. destruct (size_runs U look four from n x N0 N1) as (st & RR & AR). eapply wr_of_runs; [reflexivity|exact RR|exact AR]. Qed.
End Meet.

(** There are such functions. *)
Definition look_of (U : uenv) (s : list Z) (f : Z) : Z + list Z := match lookup_u8 U s f with Ok d => inr d | Fail rc => inl rc | _ => inl IDN2_MALLOC end.
Lemma look_of_is : forall U, nfc_ok U -> lookup_is U (lab_of U) (look_of U).
Proof.
  intros U K s f C L F. destruct (whole_ok U (lab_of U) K (lab_of_is U K) f s C L F) as (H1 & H2). unfold look_of. pose proof (lookup_safe U s f) as SF.
  destruct (lookup_u8 U s f) as [d|rc| |] eqn:E; [apply H1; reflexivity|apply H2; reflexivity|..]; exfalso; apply SF; try exact K; try exact C; unfold two64 in *; lia.
Qed.
Lemma four_of_is : forall U from, nfc_ok U -> forall l f, zlen l < 100000000000000000 -> 0 <= f < 2147483648 -> text_4i2 U (look_of U) (conv_result (look_of U)) from f l (conv_result (look_of U) l f).
Proof. intros U from K l f LL F. now apply (text_4i2_iff U (look_of U) _ from (lab_of U) K (lab_of_is U K) (look_of_is U K) f l LL F). Qed.
