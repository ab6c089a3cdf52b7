(** The facts assumed about u32_normalize hold of Normalization Form C over the
    Unicode character data. *)
From Coq Require Import Lia Bool.
From Verif Require Import Base Uenv DataTypes SpecUtf8 SpecTables SpecNfc SpecRegister DataNfc DataUcd Ucd.

(* Checks over the data. *)
Definition scalarb (c : Z) : bool := ((0 <=? c) && (c <=? 0xD7FF)) || ((0xE000 <=? c) && (c <=? 0x10FFFF)).
Definition sepb (c : Z) : bool := (c =? 0) || (c =? 46).
Definition ldhb (c : Z) : bool := ((97 <=? c) && (c <=? 122)) || ((48 <=? c) && (c <=? 57)) || (c =? 45).
Definition yes (c : Z) : bool := match nfc_qc c with None => true | _ => false end.

Definition check_decomp (e : Z * list Z) : bool :=
  let '(k, d) := e in
  (128 <=? k) && forallb scalarb d && forallb (fun c => negb (sepb c)) d && existsb (fun c => negb (ldhb c)) d &&
  (Z.of_nat (length d) <=? 4).
Definition check_comp (e : Z * Z * Z) : bool :=
  let '(a, b, v) := e in negb (sepb a) && (128 <=? b) && (128 <=? v) && scalarb v && negb (yes b).
Definition check_ccc (e : Z * Z * Z) : bool := let '(lo, hi, v) := e in (128 <=? lo) && (0 <? v) && ((hi <? 4352) || (4546 <? lo)) && ((hi <? 44032) || (55203 <? lo)).

Fixpoint steps (s : Z) (m : list Z) : option Z :=
  match m with [] => Some s | c :: r => match comp s c with Some x => steps x r | None => None end end.
Fixpoint sorted (m : list Z) : bool :=
  match m with [] => true | c :: r => match r with [] => true | d :: _ => (ccc d =? 0) || (ccc c <=? ccc d) end && sorted r end.
Definition check_yes (e : Z * list Z) : bool :=
  let '(k, d) := e in
  negb (yes k) ||
  ((ccc k =? 0) && match d with [] => false | s :: m => (ccc s =? 0) && yes s && sorted m && match steps s m with Some c => c =? k | None => false end end).

Lemma decomp_checked : forallb check_decomp ucd_decomp = true.
Proof. vm_compute. reflexivity. Qed.
Lemma comp_checked : forallb check_comp ucd_comp = true.
Proof. vm_compute. reflexivity. Qed.
Lemma ccc_checked : forallb check_ccc ucd_ccc = true.
Proof. vm_compute. reflexivity. Qed.
Lemma yes_checked : forallb check_yes ucd_decomp = true.
Proof. vm_compute. reflexivity. Qed.

Definition hangul_second (b : Z) : bool := ((4449 <=? b) && (b <=? 4469)) || ((4520 <=? b) && (b <=? 4546)).
Lemma hangul_checked : forallb (fun n => let b := 4449 + Z.of_nat n in negb (hangul_second b) || (negb (yes b) && (ccc b =? 0))) (seq 0 98) = true.
Proof. vm_compute. reflexivity. Qed.
Lemma hangul_first : forallb (fun n => yes (4352 + Z.of_nat n)) (seq 0 19) = true.
Proof. vm_compute. reflexivity. Qed.

#[local] Opaque ucd_comp ucd_decomp ucd_ccc.

Ltac bools := repeat match goal with
  | H : _ && _ = true |- _ => apply andb_true_iff in H; destruct H
  | H : _ || _ = true |- _ => apply orb_true_iff in H
  | H : (_ <=? _) = true |- _ => apply Z.leb_le in H
  | H : (_ <? _) = true |- _ => apply Z.ltb_lt in H
  | H : (_ =? _) = true |- _ => apply Z.eqb_eq in H
  | H : (_ <=? _) = false |- _ => apply Z.leb_gt in H
  | H : (_ <? _) = false |- _ => apply Z.ltb_ge in H
  | H : (_ =? _) = false |- _ => apply Z.eqb_neq in H
  | H : negb _ = true |- _ => apply negb_true_iff in H
  end.

Lemma assoc_in : forall A c (t : list (Z * A)) v, assoc c t = Some v -> In (c, v) t.
Proof.
  induction t as [|[k w] t IH]; cbn [assoc]; [discriminate|]. intros v H. destruct (c =? k) eqn:E.
  - bools. subst. injection H as <-. left; reflexivity.
  - destruct (c <? k); [discriminate|]. right. apply IH, H.
Qed.
Lemma assoc2_in : forall a b t v, assoc2 a b t = Some v -> In (a, b, v) t.
Proof.
  induction t as [|[[x y] w] t IH]; cbn [assoc2]; [discriminate|]. intros v H. destruct (a <? x); [discriminate|]. destruct ((a =? x) && (b =? y)) eqn:E.
  - bools. subst. injection H as <-. left; reflexivity.
  - right. apply IH, H.
Qed.
Lemma ranges_in : forall A c (t : list (Z * Z * A)) d, in_ranges c t d = d \/ exists lo hi, In (lo, hi, in_ranges c t d) t /\ lo <= c <= hi.
Proof.
  induction t as [|[[lo hi] w] t IH]; intros d; cbn [in_ranges]; [left; reflexivity|].
  destruct (c <? lo) eqn:E0; [left; reflexivity|]. destruct (c <=? hi) eqn:E.
  - bools. right. exists lo, hi. split; [left; reflexivity|lia].
  - destruct (IH d) as [X|(l & h & I & L)]; [left; exact X|right]. exists l, h. split; [right; exact I|exact L].
Qed.

Lemma ccc_ascii : forall c, c < 128 -> ccc c = 0.
Proof.
  intros c H. unfold ccc. destruct (ranges_in _ c ucd_ccc 0) as [E|(lo & hi & I & L)]; [exact E|].
  pose proof (proj1 (forallb_forall _ _) ccc_checked _ I) as C. cbn [check_ccc] in C. bools. lia.
Qed.
Lemma ccc_nonneg : forall c, 0 <= ccc c.
Proof.
  intros c. unfold ccc. destruct (ranges_in _ c ucd_ccc 0) as [E|(lo & hi & I & L)]; [rewrite E; lia|].
  pose proof (proj1 (forallb_forall _ _) ccc_checked _ I) as C. cbn [check_ccc] in C. bools. lia.
Qed.

Lemma ccc_hangul : forall c, 4352 <= c <= 4546 \/ 44032 <= c <= 55203 -> ccc c = 0.
Proof.
  intros c H. unfold ccc. destruct (ranges_in _ c ucd_ccc 0) as [E|(lo & hi & I & L)]; [exact E|].
  pose proof (proj1 (forallb_forall _ _) ccc_checked _ I) as C. cbn [check_ccc] in C. bools. repeat match goal with X : _ \/ _ |- _ => destruct X; bools end; lia.
Qed.

(** Composition. *)
Lemma some_inj : forall A (a b : A), Some a = Some b -> a = b.
Proof. congruence. Qed.
Lemma comp_cases : forall a b v, comp a b = Some v ->
  ((4352 <= a <= 4370 /\ 4449 <= b <= 4469) /\ v = 44032 + ((a - 4352) * 21 + (b - 4449)) * 28) \/
  (44032 <= a <= 55203 /\ (a - 44032) mod 28 = 0 /\ 4520 <= b <= 4546 /\ v = a + (b - 4519)) \/
  check_comp (a, b, v) = true.
Proof.
  intros a b v. unfold comp, hangul.
  destruct ((4352 <=? a) && (a <=? 4370) && (4449 <=? b) && (b <=? 4469)) eqn:E1.
  - intros H. apply some_inj in H. symmetry in H. bools. left. auto.
  - destruct (((44032 <=? a) && (a <=? 55203)) && ((a - 44032) mod 28 =? 0) && (4520 <=? b) && (b <=? 4546)) eqn:E2.
    + intros H. apply some_inj in H. symmetry in H. bools. right. left. auto.
    + intros H. apply assoc2_in in H. right. right. exact (proj1 (forallb_forall _ _) comp_checked _ H).
Qed.
Lemma scalarb_iff : forall c, scalarb c = true <-> scalar c.
Proof. intros c. unfold scalarb, scalar. rewrite orb_true_iff, !andb_true_iff, !Z.leb_le. lia. Qed.
Lemma comp_facts : forall a b v, comp a b = Some v -> ~ separator a /\ 128 <= b /\ 128 <= v /\ scalar v.
Proof.
  intros a b v H. unfold separator. destruct (comp_cases _ _ _ H) as [((A & B) & ->)|[(A & M & B & ->)|C]].
  - unfold scalar. repeat split; try lia.
  - assert (a - 44032 <= 11144).
    { pose proof (Z.div_mod (a - 44032) 28 ltac:(lia)). assert ((a - 44032) / 28 <= 398) by (apply Z.div_le_upper_bound; lia). lia. }
    unfold scalar. repeat split; try lia.
  - unfold check_comp in C. bools. rewrite scalarb_iff in *. unfold sepb in *. repeat match goal with H : _ || _ = false |- _ => apply orb_false_iff in H; destruct H end.
    bools. repeat split; try lia. assumption.
Qed.
Lemma comp_second : forall a b v, comp a b = Some v -> nfc_qc b <> None.
Proof.
  intros a b v H. assert (Hh : hangul_second b = true -> nfc_qc b <> None).
  { intros E. assert (R : 4449 <= b <= 4546) by (unfold hangul_second in E; bools; destruct E; bools; lia).
    pose proof (proj1 (forallb_forall _ _) hangul_checked (Z.to_nat (b - 4449)) ltac:(apply in_seq; lia)) as C. cbn beta zeta in C.
    replace (4449 + Z.of_nat (Z.to_nat (b - 4449))) with b in C by lia. rewrite E in C. cbn [negb orb] in C. bools.
    unfold yes in *. destruct (nfc_qc b); [discriminate|discriminate]. }
  destruct (comp_cases _ _ _ H) as [((A & B) & ->)|[(A & M & B & ->)|C]].
  - apply Hh. unfold hangul_second. apply orb_true_iff. left. apply andb_true_iff. rewrite !Z.leb_le. lia.
  - apply Hh. unfold hangul_second. apply orb_true_iff. right. apply andb_true_iff. rewrite !Z.leb_le. lia.
  - unfold check_comp in C. bools. unfold yes in *. destruct (nfc_qc b); discriminate.
Qed.
Lemma comp_yes : forall a b, nfc_qc b = None -> comp a b = None.
Proof. intros a b H. destruct (comp a b) eqn:E; [exfalso; exact (comp_second _ _ _ E H)|reflexivity]. Qed.
Lemma comp_ascii : forall a b, b < 128 -> comp a b = None.
Proof. intros a b H. destruct (comp a b) eqn:E; [|reflexivity]. apply comp_facts in E. lia. Qed.
Lemma comp_sep : forall a b, separator a -> comp a b = None.
Proof. intros a b H. destruct (comp a b) eqn:E; [|reflexivity]. apply comp_facts in E. tauto. Qed.

(** Decomposition. *)
Lemma hangul_parts : forall c, hangul c = true ->
  let i := c - 44032 in 0 <= i < 11172 /\ 0 <= i / 588 <= 18 /\ 0 <= (i mod 588) / 28 <= 20 /\ 0 <= i mod 28 < 28 /\
  c = 44032 + (i / 588 * 21 + (i mod 588) / 28) * 28 + i mod 28.
Proof.
  intros c H i. unfold hangul in H. bools. assert (I : 0 <= i < 11172) by (subst i; lia).
  split; [exact I|]. split; [split; [apply Z.div_pos; lia|apply Z.lt_succ_r, Z.div_lt_upper_bound; lia]|].
  pose proof (Z.mod_pos_bound i 588 ltac:(lia)).
  split; [split; [apply Z.div_pos; lia|apply Z.lt_succ_r, Z.div_lt_upper_bound; lia]|].
  split; [apply Z.mod_pos_bound; lia|].
  assert (E : i mod 28 = (i mod 588) mod 28).
  { replace 588 with (28 * 21) at 1 by lia. rewrite Z.rem_mul_r by lia. rewrite Z.mul_comm, Z_mod_plus_full, Zmod_mod. reflexivity. }
  pose proof (Z.div_mod i 588 ltac:(lia)). pose proof (Z.div_mod (i mod 588) 28 ltac:(lia)). lia.
Qed.
Lemma decomp_cases : forall c, (hangul c = true) \/ (hangul c = false /\ decomp1 c = [c]) \/ (hangul c = false /\ In (c, decomp1 c) ucd_decomp).
Proof.
  intros c. unfold decomp1. destruct (hangul c); [left; reflexivity|right]. destruct (assoc c ucd_decomp) eqn:E; [right|left]; split; auto.
  apply assoc_in, E.
Qed.
Lemma decomp_ascii : forall c, c < 128 -> decomp1 c = [c].
Proof.
  intros c H. destruct (decomp_cases c) as [E|[(_ & E)|(_ & I)]]; [unfold hangul in E; bools; lia|exact E|].
  pose proof (proj1 (forallb_forall _ _) decomp_checked _ I) as C. unfold check_decomp in C. bools. lia.
Qed.
Lemma decomp_scalar : forall c, scalar c -> Forall scalar (decomp1 c).
Proof.
  intros c S. destruct (decomp_cases c) as [E|[(_ & ->)|(_ & I)]]; [|constructor; auto|].
  - pose proof (hangul_parts c E) as (_ & A & B & T & _). unfold decomp1. rewrite E.
    constructor; [left; lia|]. constructor; [left; lia|]. destruct ((c - 44032) mod 28 =? 0); constructor; [left; lia|constructor].
  - pose proof (proj1 (forallb_forall _ _) decomp_checked _ I) as C. unfold check_decomp in C. bools.
    apply Forall_forall. intros x Hx. apply scalarb_iff. eapply forallb_forall; eauto.
Qed.
Lemma sepb_iff : forall c, sepb c = true <-> separator c.
Proof. intros c. unfold sepb, separator. rewrite orb_true_iff, !Z.eqb_eq. tauto. Qed.
Lemma decomp_sep : forall s c, separator s -> In s (decomp1 c) -> s = c.
Proof.
  intros s c S. destruct (decomp_cases c) as [E|[(_ & ->)|(_ & I)]].
  - pose proof (hangul_parts c E) as (_ & A & B & T & _). unfold decomp1. rewrite E. unfold separator in S.
    cbn [In]. intros [X|[X|X]]; [lia|lia|]. destruct ((c - 44032) mod 28 =? 0); cbn [In] in X; [tauto|destruct X as [X|[]]; lia].
  - cbn [In]. intuition.
  - intros X. pose proof (proj1 (forallb_forall _ _) decomp_checked _ I) as C. unfold check_decomp in C. bools.
    assert (N : negb (sepb s) = true) by (eapply (proj1 (forallb_forall (fun c => negb (sepb c)) _)); eauto).
    apply sepb_iff in S. rewrite S in N. discriminate.
Qed.
Lemma decomp_length : forall c, (length (decomp1 c) <= 4)%nat.
Proof.
  intros c. destruct (decomp_cases c) as [E|[(_ & ->)|(_ & I)]]; [|cbn; lia|].
  - unfold decomp1. rewrite E. destruct ((c - 44032) mod 28 =? 0); cbn; lia.
  - pose proof (proj1 (forallb_forall _ _) decomp_checked _ I) as C. unfold check_decomp in C. bools. lia.
Qed.

(** Ordering. *)
Lemma sink_in : forall c l x, In x (sink c l) <-> x = c \/ In x l.
Proof.
  induction l as [|d l IH]; intros x; cbn [sink]; [cbn; intuition|].
  destruct ((0 <? ccc d) && (ccc d <? ccc c)); cbn [In]; [rewrite IH|]; intuition.
Qed.
Lemma order_in : forall l x, In x (order l) <-> In x l.
Proof. induction l as [|c l IH]; intros x; cbn [order]; [tauto|]. rewrite sink_in, IH. cbn [In]. intuition. Qed.
Lemma sink_length : forall c l, length (sink c l) = Datatypes.S (length l).
Proof. induction l as [|d l IH]; cbn [sink]; [reflexivity|]. destruct (_ && _); cbn [length]; [rewrite IH|]; reflexivity. Qed.
Lemma order_length : forall l, length (order l) = length l.
Proof. induction l as [|c l IH]; cbn [order]; [reflexivity|]. rewrite sink_length, IH. reflexivity. Qed.
Lemma sink_starter : forall c l, ccc c = 0 -> sink c l = c :: l.
Proof.
  intros c [|d l] H; cbn [sink]; [reflexivity|]. rewrite H.
  destruct (0 <? ccc d) eqn:E; cbn [andb]; [|reflexivity]. destruct (ccc d <? 0) eqn:F; [bools; lia|reflexivity].
Qed.
Lemma sink_app : forall c s l r, ccc s = 0 -> sink c (l ++ s :: r) = sink c l ++ s :: r.
Proof.
  intros c s l r H. induction l as [|d l IH]; cbn [sink app].
  - rewrite H. reflexivity.
  - destruct (_ && _); [rewrite IH|]; reflexivity.
Qed.
Lemma order_app : forall s l r, ccc s = 0 -> order (l ++ s :: r) = order l ++ s :: order r.
Proof.
  intros s l r H. induction l as [|c l IH]; cbn [order app]; [apply sink_starter, H|]. rewrite IH. apply sink_app, H.
Qed.

(** Composing around a character that never combines. *)
Section Separator.
  Variable s : Z.
  Hypothesis s0 : ccc s = 0.
  Hypothesis first : forall b, comp s b = None.
  Hypothesis second : forall a, comp a s = None.
  Lemma compose_inert : forall l p, compose s p l = s :: rev p ++ recompose l.
  Proof.
    induction l as [|c l IH]; intros p; cbn [compose recompose]; [rewrite app_nil_r; reflexivity|].
    rewrite first. destruct (blocked p c); (destruct (ccc c =? 0); [reflexivity|]; rewrite IH; cbn [rev]; rewrite <- app_assoc; reflexivity).
  Qed.
  Lemma compose_app : forall l a p r, compose a p (l ++ s :: r) = compose a p l ++ s :: recompose r.
  Proof.
    induction l as [|c l IH]; intros a p r; cbn [compose app].
    - rewrite second, s0. cbn [Z.eqb]. rewrite compose_inert. cbn [rev app]. destruct (blocked p s); reflexivity.
    - destruct (blocked p c).
      + destruct (ccc c =? 0); rewrite IH; [|reflexivity]. cbn [app]. rewrite <- app_assoc. reflexivity.
      + destruct (comp a c); [apply IH|]. destruct (ccc c =? 0); rewrite IH; [|reflexivity]. cbn [app]. rewrite <- app_assoc. reflexivity.
  Qed.
  Lemma recompose_app : forall l r, recompose (l ++ s :: r) = recompose l ++ s :: recompose r.
  Proof.
    induction l as [|c l IH]; intros r; cbn [recompose app].
    - rewrite s0. cbn [Z.eqb]. rewrite compose_inert. reflexivity.
    - destruct (ccc c =? 0); [apply compose_app|]. rewrite IH. reflexivity.
  Qed.
End Separator.

(** What composition produces. *)
Lemma compose_all : forall (P : Z -> Prop), (forall a b v, comp a b = Some v -> P v) ->
  forall l s p, P s -> Forall P p -> Forall P l -> Forall P (compose s p l).
Proof.
  intros P H. induction l as [|c l IH]; intros s p S Q R; cbn [compose].
  - constructor; auto. apply Forall_rev, Q.
  - inversion R; subst. destruct (blocked p c).
    + destruct (ccc c =? 0); [|apply IH; auto]. constructor; auto. apply Forall_app. split; [apply Forall_rev, Q|apply IH; auto].
    + destruct (comp s c) eqn:E; [apply IH; eauto|].
      destruct (ccc c =? 0); [|apply IH; auto]. constructor; auto. apply Forall_app. split; [apply Forall_rev, Q|apply IH; auto].
Qed.
Lemma recompose_all : forall (P : Z -> Prop), (forall a b v, comp a b = Some v -> P v) -> forall l, Forall P l -> Forall P (recompose l).
Proof.
  intros P H. induction l as [|c l IH]; intros R; cbn [recompose]; auto. inversion R; subst.
  destruct (ccc c =? 0); [apply compose_all; auto|]. constructor; auto.
Qed.
Lemma compose_length : forall l s p, (length (compose s p l) <= Datatypes.S (length p + length l))%nat.
Proof.
  induction l as [|c l IH]; intros s p; cbn [compose].
  - cbn [length]. rewrite rev_length. lia.
  - assert (X : (length (if (ccc c =? 0)%Z then s :: rev p ++ compose c [] l else compose s (c :: p) l) <= Datatypes.S (length p + length (c :: l)))%nat).
    { destruct (ccc c =? 0); [cbn [length]; rewrite app_length, rev_length; specialize (IH c []); cbn [length] in IH; lia|].
      specialize (IH s (c :: p)). cbn [length] in *. lia. }
    destruct (blocked p c); [exact X|]. destruct (comp s c); [specialize (IH z p); cbn [length]; lia|exact X].
Qed.
Lemma recompose_length : forall l, (length (recompose l) <= length l)%nat.
Proof.
  induction l as [|c l IH]; cbn [recompose]; [cbn; lia|]. destruct (ccc c =? 0); [|cbn [length]; lia].
  pose proof (compose_length l c []). cbn [length] in *. lia.
Qed.
Lemma flat_length : forall l, (length (flat_map decomp1 l) <= 4 * length l)%nat.
Proof. induction l as [|c l IH]; cbn [flat_map length]; [lia|]. rewrite app_length. pose proof (decomp_length c). lia. Qed.

Lemma separator_facts : forall s, separator s -> ccc s = 0 /\ decomp1 s = [s] /\ s < 128.
Proof. intros s S. assert (s < 128) by (unfold separator in S; lia). split; [apply ccc_ascii; auto|]. split; [apply decomp_ascii; auto|auto]. Qed.

Lemma recompose_ascii : forall l, Forall (fun c => 0 <= c < 128) l -> recompose l = l.
Proof.
  intros [|c l] H; [reflexivity|]. inversion H as [|? ? C L]; subst. cbn [recompose]. rewrite (ccc_ascii c) by lia. cbn [Z.eqb].
  clear H. revert c C. induction L as [|d l D L IH]; intros c C; cbn [compose blocked]; [reflexivity|].
  rewrite comp_ascii by lia. rewrite (ccc_ascii d) by lia. cbn [Z.eqb rev app]. rewrite IH by auto. reflexivity.
Qed.
Lemma order_starters : forall l, Forall (fun c => ccc c = 0) l -> order l = l.
Proof. induction 1 as [|c l C L IH]; cbn [order]; [reflexivity|]. rewrite IH. apply sink_starter, C. Qed.

Lemma ucd_nfc_ok : nfc_ok ucd.
Proof.
  constructor; cbn [ue_nfc ucd].
  - intros s a b S. destruct (separator_facts s S) as (S0 & D & L). unfold nfc. rewrite flat_map_app. cbn [flat_map]. rewrite D. cbn [app].
    rewrite order_app by auto. rewrite recompose_app; auto. intros; apply comp_sep; auto. intros; apply comp_ascii; auto.
  - intros s l p S E. injection E as <-. intros I. unfold nfc in I.
    assert (X : forall l, In s (recompose l) -> In s l).
    { clear l I. intros l I. destruct (in_dec Z.eq_dec s l) as [H|H]; [exact H|exfalso].
      assert (F : Forall (fun c => c <> s) (recompose l)).
      { apply recompose_all; [|apply Forall_forall; intros x Hx ->; auto]. intros a b v E. apply comp_facts in E. destruct (separator_facts s S) as (_ & _ & L). lia. }
      rewrite Forall_forall in F. exact (F s I eq_refl). }
    apply X in I. rewrite order_in in I. apply in_flat_map in I. destruct I as (c & I & J). rewrite (decomp_sep s c S J). exact I.
  - intros l H. f_equal. unfold nfc. assert (E : flat_map decomp1 l = l).
    { induction H as [|c l C L IH]; cbn [flat_map]; [reflexivity|]. rewrite IH, (decomp_ascii c) by lia. reflexivity. }
    rewrite E, order_starters; [apply recompose_ascii, H|]. eapply Forall_impl; [|exact H]. intros c C. apply ccc_ascii. exact (proj2 C).
  - intros l p H E. injection E as <-. unfold nfc. apply recompose_all; [intros a b v E; apply (comp_facts _ _ _ E)|].
    apply Forall_forall. intros x I. rewrite order_in in I. apply in_flat_map in I. destruct I as (c & I & J).
    rewrite Forall_forall in H. pose proof (decomp_scalar c (H c I)) as F. rewrite Forall_forall in F. auto.
  - intros l p E. injection E as <-. unfold nfc, zlen. pose proof (recompose_length (order (flat_map decomp1 l))). rewrite order_length in *.
    pose proof (flat_length l). lia.
Qed.

(** No string of lower-case letters, digits and hyphens is made from another. *)
Lemma ldhb_iff : forall c, ldhb c = true <-> lower_ldh c.
Proof. intros c. unfold ldhb, lower_ldh. rewrite !orb_true_iff, !andb_true_iff, !Z.leb_le, Z.eqb_eq. tauto. Qed.
Lemma ldh_ascii : forall c, lower_ldh c -> c < 128.
Proof. unfold lower_ldh. lia. Qed.
Lemma compose_wide : forall l s p, 128 <= s \/ Exists (fun c => 128 <= c) p -> Exists (fun c => 128 <= c) (compose s p l).
Proof.
  induction l as [|c l IH]; intros s p H; cbn [compose].
  - destruct H as [H|H]; [constructor; exact H|]. apply Exists_cons_tl. apply Exists_rev, H.
  - assert (X : Exists (fun c => 128 <= c) (if ccc c =? 0 then s :: rev p ++ compose c [] l else compose s (c :: p) l)).
    { destruct (ccc c =? 0).
      - destruct H as [H|H]; [constructor; exact H|]. apply Exists_cons_tl, Exists_app. left. apply Exists_rev, H.
      - apply IH. destruct H as [H|H]; [left; exact H|right; apply Exists_cons_tl, H]. }
    destruct (blocked p c); [exact X|]. destruct (comp s c) eqn:E; [|exact X]. apply IH. left. apply (comp_facts _ _ _ E).
Qed.
Lemma narrow_not_wide : forall l, Forall lower_ldh l -> ~ Exists (fun c => 128 <= c) l.
Proof. intros l H E. apply Exists_exists in E. destruct E as (x & I & L). rewrite Forall_forall in H. apply H in I. apply ldh_ascii in I. lia. Qed.
Lemma compose_narrow : forall l s p, Forall lower_ldh (compose s p l) -> compose s p l = s :: rev p ++ l.
Proof.
  induction l as [|c l IH]; intros s p; cbn [compose]; [intros _; rewrite app_nil_r; reflexivity|].
  assert (X : Forall lower_ldh (if ccc c =? 0 then s :: rev p ++ compose c [] l else compose s (c :: p) l) ->
          (if ccc c =? 0 then s :: rev p ++ compose c [] l else compose s (c :: p) l) = s :: rev p ++ c :: l).
  { destruct (ccc c =? 0).
    - intros H. inversion H as [|? ? H1 H2]; subst. apply Forall_app in H2. rewrite IH by apply H2. reflexivity.
    - intros H. rewrite IH by exact H. cbn [rev]. rewrite <- app_assoc. reflexivity. }
  destruct (blocked p c); [exact X|]. destruct (comp s c) eqn:E; [|exact X]. intros H. exfalso. apply (narrow_not_wide _ H).
  apply compose_wide. left. apply (comp_facts _ _ _ E).
Qed.
Lemma recompose_narrow : forall l, Forall lower_ldh (recompose l) -> recompose l = l.
Proof.
  induction l as [|c l IH]; cbn [recompose]; [reflexivity|]. destruct (ccc c =? 0); [intros H; rewrite compose_narrow by exact H; reflexivity|].
  intros H. inversion H; subst. rewrite IH by assumption. reflexivity.
Qed.
Lemma decomp_ldh : forall c, Forall lower_ldh (decomp1 c) -> decomp1 c = [c].
Proof.
  intros c H. destruct (decomp_cases c) as [E|[(_ & E)|(_ & I)]]; [|exact E|].
  - pose proof (hangul_parts c E) as (_ & A & _). unfold decomp1 in H. rewrite E in H. apply Forall_inv in H. apply ldh_ascii in H. lia.
  - pose proof (proj1 (forallb_forall _ _) decomp_checked _ I) as C. unfold check_decomp in C. bools.
    match goal with X : existsb _ _ = true |- _ => apply existsb_exists in X; destruct X as (x & J & N) end.
    rewrite Forall_forall in H. apply H, ldhb_iff in J. rewrite J in N. discriminate.
Qed.
Lemma ucd_no_ldh : nfc_no_ldh ucd.
Proof.
  intros l m E H. cbn [ue_nfc ucd] in E. injection E as <-. unfold nfc in *. rewrite recompose_narrow in * by exact H.
  assert (F : Forall lower_ldh (flat_map decomp1 l)).
  { rewrite Forall_forall in *. intros x I. apply H, order_in, I. }
  rewrite order_starters by (eapply Forall_impl; [|exact F]; intros c C; apply ccc_ascii, ldh_ascii, C).
  clear H. induction l as [|c l IH]; cbn [flat_map] in *; [reflexivity|]. apply Forall_app in F. destruct F as (F1 & F2).
  rewrite (decomp_ldh c F1). cbn [app]. f_equal. apply IH, F2.
Qed.

(** The quick check is sound.  [merge ms X R]: [R] is [X] with the marks [ms]
    of the character before worked in; those marks only move past marks that do
    not combine. *)
Definition loose (x : Z) : Prop := 0 < ccc x /\ forall a, comp a x = None.
Inductive merge : list Z -> list Z -> list Z -> Prop :=
| merge_nil : forall X, merge [] X X
| merge_mark : forall m ms X R, merge ms X R -> merge (m :: ms) X (m :: R)
| merge_pass : forall m ms x X R, loose x -> Forall (fun n => ccc x < ccc n) (m :: ms) -> merge (m :: ms) X R -> merge (m :: ms) (x :: X) (x :: R).

Inductive lead : list Z -> Prop :=
| lead_nil : lead []
| lead_starter : forall c l, ccc c = 0 -> lead (c :: l)
| lead_loose : forall c l, loose c -> lead l -> lead (c :: l).

Lemma sink_merge_nil : forall m X, lead X -> merge [m] X (sink m X).
Proof.
  intros m X L. induction L as [|c l C|c l C L IH]; cbn [sink].
  - apply merge_mark, merge_nil.
  - rewrite C. cbn [Z.ltb Z.compare andb]. apply merge_mark, merge_nil.
  - destruct ((0 <? ccc c) && (ccc c <? ccc m)) eqn:E; [|apply merge_mark, merge_nil]. bools.
    apply merge_pass; auto.
Qed.
Lemma sink_merge : forall ms X R, merge ms X R -> forall m, lead X ->
  match ms with [] => True | d :: _ => ccc d = 0 \/ ccc m <= ccc d end -> merge (m :: ms) X (sink m R).
Proof.
  induction 1 as [X|d ms X R M IH|d ms x X R Lx F M IH]; intros m L S.
  - apply sink_merge_nil, L.
  - cbn [sink]. destruct ((0 <? ccc d) && (ccc d <? ccc m)) eqn:E; [bools; lia|]. apply merge_mark, merge_mark, M.
  - cbn [sink]. destruct ((0 <? ccc x) && (ccc x <? ccc m)) eqn:E; [|apply merge_mark, merge_pass; auto]. bools.
    apply merge_pass; auto. apply IH; auto. inversion L; subst; auto. destruct Lx; lia.
Qed.
Lemma order_merge : forall ms X, sorted ms = true -> lead X -> merge ms X (fold_right sink X ms).
Proof.
  induction ms as [|m ms IH]; intros X S L; cbn [fold_right sorted] in *; [constructor|]. bools.
  apply sink_merge; auto. destruct ms as [|d ms]; auto. bools. destruct H as [H|H]; bools; auto.
Qed.
Lemma order_fold : forall a b, order (a ++ b) = fold_right sink (order b) a.
Proof. induction a as [|c a IH]; intros b; cbn [order app fold_right]; [reflexivity|]. rewrite IH. reflexivity. Qed.

Lemma compose_loose : forall c p x X, loose x -> compose c p (x :: X) = compose c (x :: p) X.
Proof.
  intros c p x X (P & N). cbn [compose]. rewrite N. destruct (ccc x =? 0) eqn:E; [bools; lia|]. destruct (blocked p x); reflexivity.
Qed.
Lemma compose_merge : forall ms X R, merge ms X R -> forall s p c, steps s ms = Some c ->
  match p with [] => True | d :: _ => Forall (fun n => ccc d < ccc n) ms end -> compose s p R = compose c p X.
Proof.
  induction 1 as [X|m ms X R M IH|m ms x X R Lx F M IH]; intros s p c S B.
  - cbn [steps] in S. injection S as <-. reflexivity.
  - cbn [steps] in S. destruct (comp s m) as [t|] eqn:E; [|discriminate]. cbn [compose].
    assert (Bl : blocked p m = false).
    { destruct p as [|d p]; [reflexivity|]. inversion B; subst. cbn [blocked]. apply Z.leb_gt. assumption. }
    rewrite Bl, E. apply IH; [exact S|]. destruct p as [|d p]; [exact I|]. inversion B; assumption.
  - rewrite !compose_loose by exact Lx. apply IH; [exact S|exact F].
Qed.

(** Characters with answer YES. *)
Lemma yes_decomp : forall c, nfc_qc c = None ->
  (decomp1 c = [c]) \/ (ccc c = 0 /\ exists s m, decomp1 c = s :: m /\ ccc s = 0 /\ (forall a, comp a s = None) /\ sorted m = true /\ steps s m = Some c).
Proof.
  intros c Y. destruct (decomp_cases c) as [E|[(_ & E)|(_ & I)]]; [right|left; exact E|right].
  - pose proof (hangul_parts c E) as (I & A & B & T & Q). set (i := c - 44032) in *. set (q := i / 588) in *. set (v := (i mod 588) / 28) in *. set (t := i mod 28) in *.
    split; [apply ccc_hangul; unfold i in I; lia|]. unfold decomp1. rewrite E. fold i. fold q. fold v. fold t.
    eexists. eexists. split; [reflexivity|]. split; [apply ccc_hangul; lia|].
    assert (LV : comp (4352 + q) (4449 + v) = Some (44032 + (q * 21 + v) * 28)).
    { unfold comp. replace ((4352 <=? 4352 + q) && (4352 + q <=? 4370) && (4449 <=? 4449 + v) && (4449 + v <=? 4469)) with true.
      2: { symmetry. rewrite !andb_true_iff, !Z.leb_le. lia. }
      replace (4352 + q - 4352) with q by lia. replace (4449 + v - 4449) with v by lia. reflexivity. }
    split.
    { intros a. apply comp_yes. pose proof (proj1 (forallb_forall _ _) hangul_first (Z.to_nat q) ltac:(apply in_seq; lia)) as C. cbn beta in C.
      rewrite Z2Nat.id in C by lia. unfold yes in C. destruct (nfc_qc (4352 + q)); [discriminate|reflexivity]. }
    destruct (t =? 0) eqn:T0; bools.
    + split; [reflexivity|]. cbn [steps]. rewrite LV. f_equal. lia.
    + split.
      { cbn [sorted]. rewrite (ccc_hangul (4519 + t)) by lia. reflexivity. }
      cbn [steps]. rewrite LV. unfold comp, hangul.
      set (lv := 44032 + (q * 21 + v) * 28).
      replace ((4352 <=? lv) && (lv <=? 4370) && (4449 <=? 4519 + t) && (4519 + t <=? 4469)) with false.
      2: { symmetry. rewrite !andb_false_iff, !Z.leb_gt. unfold lv. lia. }
      replace ((44032 <=? lv) && (lv <=? 55203) && ((lv - 44032) mod 28 =? 0) && (4520 <=? 4519 + t) && (4519 + t <=? 4546)) with true.
      2: { symmetry. rewrite !andb_true_iff, !Z.leb_le, Z.eqb_eq. unfold lv. replace (44032 + (q * 21 + v) * 28 - 44032) with ((q * 21 + v) * 28) by lia.
           rewrite Z_mod_mult. lia. }
      f_equal. unfold lv. lia.
  - pose proof (proj1 (forallb_forall _ _) yes_checked _ I) as C. unfold check_yes, yes at 1 in C. rewrite Y in C. cbn [negb orb] in C. bools.
    split; [assumption|]. destruct (decomp1 c) as [|s m]; [discriminate|]. exists s, m. bools. unfold yes in *.
    destruct (nfc_qc s) eqn:Ys; [discriminate|]. destruct (steps s m) eqn:St; [|discriminate]. bools. subst z.
    repeat split; auto. intros a. apply comp_yes, Ys.
Qed.

Lemma yes_order : forall l last, qc_yes ccc last l -> lead (order (flat_map decomp1 l)) /\
  (forall c r, l = c :: r -> 0 < ccc c -> exists X, order (flat_map decomp1 l) = c :: X) /\
  (forall c p, compose c p (order (flat_map decomp1 l)) = c :: rev p ++ l).
Proof.
  induction l as [|y l IH]; intros last H.
  - split; [constructor|]. split; [discriminate|]. intros c p. cbn [flat_map order compose]. rewrite app_nil_r. reflexivity.
  - cbn [qc_yes] in H. destruct H as (Y & O & H). destruct (IH _ H) as (L & Hd & Cp). clear IH. cbn [flat_map].
    destruct (yes_decomp y Y) as [D|(Y0 & s & m & D & S0 & N & So & St)].
    + rewrite D. cbn [app order]. destruct (Z.eq_dec (ccc y) 0) as [Y0|Y0].
      * rewrite sink_starter by exact Y0. split; [constructor; exact Y0|]. split; [intros c r E P; injection E as <- <-; lia|].
        intros c p. cbn [compose]. rewrite comp_yes by exact Y. rewrite Y0. cbn [Z.eqb]. rewrite Cp. cbn [rev app]. destruct (blocked p y); reflexivity.
      * pose proof (ccc_nonneg y). assert (Ly : loose y) by (split; [lia|intros a; apply comp_yes, Y]).
        assert (Si : sink y (order (flat_map decomp1 l)) = y :: order (flat_map decomp1 l)).
        { destruct l as [|z l]; [reflexivity|]. cbn [qc_yes] in H. destruct H as (Z1 & Z2 & Z3).
          destruct (order (flat_map decomp1 (z :: l))) as [|d X] eqn:E; [reflexivity|]. cbn [sink].
          destruct ((0 <? ccc d) && (ccc d <? ccc y)) eqn:B; [exfalso; bools|reflexivity].
          destruct (Z.eq_dec (ccc z) 0) as [z0|z0].
          - cbn [flat_map] in E. destruct (yes_decomp z Z1) as [Dz|(_ & s & m & Dz & S0 & _)]; rewrite Dz in E; cbn [app order] in E.
            + rewrite sink_starter in E by exact z0. injection E as -> _. lia.
            + rewrite sink_starter in E by exact S0. injection E as -> _. lia.
          - pose proof (ccc_nonneg z). destruct (Hd z l eq_refl) as (X' & E'); [lia|]. injection E' as -> _. lia. }
        rewrite Si. split; [apply lead_loose; auto|]. split; [intros c r E P; injection E as <- <-; eexists; reflexivity|].
        intros c p. rewrite compose_loose by exact Ly. rewrite Cp. cbn [rev]. rewrite <- app_assoc. reflexivity.
    + rewrite D. cbn [app order]. rewrite sink_starter by exact S0. split; [constructor; exact S0|]. split; [intros c r E P; injection E as <- <-; lia|].
      intros c p. cbn [compose]. rewrite N, S0. cbn [Z.eqb]. rewrite order_fold.
      rewrite (compose_merge _ _ _ (order_merge m _ So L) s [] y St I), Cp. cbn [rev app]. destruct (blocked p s); reflexivity.
Qed.
Lemma ucd_qc_sound : qc_sound ucd.
Proof.
  intros l H. cbn [ue_nfc ue_ccc ucd] in *. f_equal. unfold nfc. revert H. generalize 0 as last.
  induction l as [|y l IH]; intros last H; [reflexivity|]. pose proof (yes_order _ _ H) as (L & Hd & Cp).
  pose proof H as (Y & O & H'). destruct (yes_order _ _ H') as (L' & Hd' & Cp'). cbn [flat_map] in *.
  destruct (yes_decomp y Y) as [D|(Y0 & s & m & D & S0 & N & So & St)].
  - destruct (Z.eq_dec (ccc y) 0) as [Y0|Y0].
    + rewrite D. cbn [app order]. rewrite sink_starter by exact Y0. cbn [recompose]. rewrite Y0. cbn [Z.eqb]. rewrite Cp'. reflexivity.
    + pose proof (ccc_nonneg y). destruct (Hd y l eq_refl) as (X & E); [lia|].
      assert (EX : X = order (flat_map decomp1 l)).
      { rewrite D in E. cbn [app order] in E. destruct (order (flat_map decomp1 l)) as [|d X']; cbn [sink] in E; [injection E as <-; reflexivity|].
        destruct ((0 <? ccc d) && (ccc d <? ccc y)) eqn:B; [bools; injection E as -> _; lia|]. injection E as <-. reflexivity. }
      rewrite E. cbn [recompose]. destruct (ccc y =? 0) eqn:Z0; [bools; lia|]. rewrite EX, (IH (ccc y)) by exact H'. reflexivity.
  - rewrite D. cbn [app order]. rewrite sink_starter by exact S0. cbn [recompose]. rewrite S0. cbn [Z.eqb]. rewrite order_fold.
    rewrite (compose_merge _ _ _ (order_merge m _ So L') s [] y St I), Cp'. reflexivity.
Qed.
