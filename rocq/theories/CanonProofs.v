(** Canonical equivalence and the mapping of UTS 46. *)
From Coq Require Import Lia Bool.
From Verif Require Import Base PunyBase Uenv DataTypes DataTr46 SpecUtf8 SpecTables SpecLabel SpecLookup SpecNfc DataUcd Ucd UcdProofs UcdTree Gentr46 Tr46Facts MapProofs
  BaseTop StableProofs Idna LabelProofs SpecCanon.

(** ** Rearranging marks *)
Inductive sw (P : Z -> Prop) : list Z -> list Z -> Prop :=
| sw_refl : forall l, sw P l l
| sw_step : forall a c d b m, P c -> P d -> 0 < ccc c -> 0 < ccc d -> ccc c <> ccc d -> sw P (a ++ d :: c :: b) m -> sw P (a ++ c :: d :: b) m.
Definition any (c : Z) : Prop := True.
Lemma sw_trans : forall (P : Z -> Prop) l m n, sw P l m -> sw P m n -> sw P l n.
Proof. intros P l m n H. revert n. induction H; intros n K; [exact K|]. eapply sw_step; eauto. Qed.
Lemma sw_one : forall (P : Z -> Prop) a c d b, P c -> P d -> 0 < ccc c -> 0 < ccc d -> ccc c <> ccc d -> sw P (a ++ c :: d :: b) (a ++ d :: c :: b).
Proof. intros. eapply sw_step; eauto. apply sw_refl. Qed.
Lemma sw_sym : forall (P : Z -> Prop) l m, sw P l m -> sw P m l.
Proof. intros P l m H. induction H; [apply sw_refl|]. eapply sw_trans; [exact IHsw|]. apply sw_one; auto. Qed.
Lemma sw_app_l : forall (P : Z -> Prop) x l m, sw P l m -> sw P (x ++ l) (x ++ m).
Proof. intros P x l m H. induction H; [apply sw_refl|]. rewrite app_assoc. eapply sw_step; eauto. now rewrite <- app_assoc. Qed.
Lemma sw_app_r : forall (P : Z -> Prop) x l m, sw P l m -> sw P (l ++ x) (m ++ x).
Proof. intros P x l m H. induction H; [apply sw_refl|]. rewrite <- app_assoc. cbn [app]. eapply sw_step; eauto. rewrite <- app_assoc in IHsw. exact IHsw. Qed.
Lemma sw_app : forall (P : Z -> Prop) l m x y, sw P l m -> sw P x y -> sw P (l ++ x) (m ++ y).
Proof. intros. eapply sw_trans; [apply sw_app_r; eauto|apply sw_app_l; auto]. Qed.
Lemma sw_cons : forall (P : Z -> Prop) c l m, sw P l m -> sw P (c :: l) (c :: m).
Proof. intros P c l m H. apply (sw_app_l P [c]). exact H. Qed.

Lemma sink_comm : forall c d l, 0 < ccc c -> 0 < ccc d -> ccc c <> ccc d -> sink c (sink d l) = sink d (sink c l).
Proof.
  assert (A : forall c d l, 0 < ccc c -> ccc c < ccc d -> sink c (sink d l) = sink d (sink c l)).
  { intros c d l C D. assert (E0 : (0 <? ccc c) && (ccc c <? ccc d) = true) by (apply andb_true_iff; split; apply Z.ltb_lt; lia).
    assert (E1 : (0 <? ccc d) && (ccc d <? ccc c) = false) by (apply andb_false_iff; right; apply Z.ltb_ge; lia).
    induction l as [|e r IH]; cbn [sink].
    - rewrite E0, E1. reflexivity.
    - destruct ((0 <? ccc e) && (ccc e <? ccc d)) eqn:Ed; destruct ((0 <? ccc e) && (ccc e <? ccc c)) eqn:Ec; cbn [sink]; rewrite ?Ed, ?Ec, ?E0, ?E1; cbn [sink]; rewrite ?Ed, ?Ec, ?E0, ?E1.
      + now rewrite IH.
      + reflexivity.
      + exfalso. rewrite andb_true_iff, !Z.ltb_lt in Ec. rewrite andb_false_iff, !Z.ltb_ge in Ed. lia.
      + reflexivity. }
  intros c d l C D N. destruct (Z_lt_ge_dec (ccc c) (ccc d)); [apply A; lia|symmetry; apply A; lia].
Qed.
Lemma order_sw : forall (P : Z -> Prop) l m, sw P l m -> order l = order m.
Proof.
  intros P l m H. induction H; [reflexivity|]. rewrite <- IHsw, !order_fold. f_equal. cbn [order]. now apply sink_comm.
Qed.

Lemma sink_sw : forall (P : Z -> Prop) c l, P c -> Forall P l -> sw P (c :: l) (sink c l).
Proof.
  intros P c l Pc. induction l as [|d r IH]; intros F; cbn [sink]; [apply sw_refl|]. inversion F; subst.
  destruct ((0 <? ccc d) && (ccc d <? ccc c)) eqn:E; [|apply sw_refl]. rewrite andb_true_iff, !Z.ltb_lt in E.
  eapply sw_trans; [apply (sw_one P []); auto; lia|]. cbn [app]. apply sw_cons. auto.
Qed.
Lemma Forall_any : forall l, Forall any l.
Proof. intros l. apply Forall_forall. intros. exact I. Qed.
Lemma order_any : forall l, sw any l (order l).
Proof.
  induction l as [|c l IH]; cbn [order]; [apply sw_refl|]. eapply sw_trans; [apply sw_cons, IH|]. apply sink_sw; [exact I|apply Forall_any].
Qed.
Lemma order_iff : forall l m, order l = order m <-> sw any l m.
Proof.
  intros l m. split; [|apply order_sw]. intros E. eapply sw_trans; [apply order_any|]. rewrite E. apply sw_sym, order_any.
Qed.

(** Rearranging without moving U+0345. *)
Definition not_iota (c : Z) : Prop := c <> iota_below.
Lemma ccc_checked_240 : forallb (fun e => let '(lo, hi, v) := e in v <=? 240) ucd_ccc = true.
Proof. vm_compute. reflexivity. Qed.
Lemma ccc_le_240 : forall c, ccc c <= 240.
Proof.
  intros c. unfold ccc. destruct (ranges_in _ c ucd_ccc 0) as [->|(lo & hi & I & _)]; [lia|].
  pose proof (proj1 (forallb_forall _ _) ccc_checked_240 _ I) as H. cbn beta iota in H. now apply Z.leb_le in H.
Qed.
Lemma ccc_iota : ccc iota_below = 240.
Proof. vm_compute. reflexivity. Qed.
Lemma sink_not_iota : forall c l, not_iota c -> sw not_iota (c :: l) (sink c l).
Proof.
  intros c l Pc. induction l as [|d r IH]; cbn [sink]; [apply sw_refl|].
  destruct ((0 <? ccc d) && (ccc d <? ccc c)) eqn:E; [|apply sw_refl]. rewrite andb_true_iff, !Z.ltb_lt in E.
  eapply sw_trans; [apply (sw_one not_iota []); auto; try lia|].
  - intros ->. rewrite ccc_iota in E. pose proof (ccc_le_240 c). lia.
  - cbn [app]. apply sw_cons. auto.
Qed.
Lemma ccc_checked_iota : forallb (fun e => let '(lo, hi, v) := e in negb (v =? 240) || ((lo =? 0x345) && (hi =? 0x345))) ucd_ccc = true.
Proof. vm_compute. reflexivity. Qed.
Lemma ccc_240 : forall c, ccc c = 240 -> c = iota_below.
Proof.
  intros c H. unfold ccc in H. destruct (ranges_in _ c ucd_ccc 0) as [E|(lo & hi & I & R)]; [rewrite E in H; discriminate|].
  pose proof (proj1 (forallb_forall _ _) ccc_checked_iota _ I) as K. cbn beta iota in K. rewrite H in K. change (240 =? 240) with true in K. cbn [negb orb] in K.
  rewrite andb_true_iff, !Z.eqb_eq in K. unfold iota_below. lia.
Qed.
Lemma iota_stays : forall l, iota_last (iota_below :: l) -> order (iota_below :: l) = iota_below :: order l.
Proof.
  induction l as [|d r IH]; intros (H & K); [reflexivity|]. specialize (H eq_refl). rewrite ccc_iota in H. pose proof (ccc_le_240 d). pose proof (ccc_nonneg d).
  assert (D : exists t, order (d :: r) = d :: t).
  { destruct (Z.eq_dec (ccc d) 0) as [Z|N].
    - cbn [order]. rewrite sink_starter by auto. eauto.
    - assert (d = iota_below) as -> by (apply ccc_240; lia). rewrite IH by exact K. eauto. }
  destruct D as (t & D). cbn [order] in *. rewrite D. cbn [sink]. rewrite ccc_iota.
  assert ((0 <? ccc d) && (ccc d <? 240) = false) as ->; [|reflexivity]. apply andb_false_iff. rewrite !Z.ltb_ge. lia.
Qed.
Lemma order_not_iota : forall l, iota_last l -> sw not_iota l (order l).
Proof.
  induction l as [|c l IH]; intros H; [apply sw_refl|]. destruct (Z.eq_dec c iota_below) as [->|N].
  - rewrite iota_stays by exact H. apply sw_cons, IH, H.
  - cbn [order]. eapply sw_trans; [apply sw_cons, IH, H|]. now apply sink_not_iota.
Qed.
Lemma order_eq_not_iota : forall l m, iota_last l -> iota_last m -> order l = order m -> sw not_iota l m.
Proof. intros l m L M E. eapply sw_trans; [apply order_not_iota, L|]. rewrite E. apply sw_sym, order_not_iota, M. Qed.

(** ** Maps on characters *)
Definition same_class (k : Z) (l : list Z) : Prop := Forall (fun c => ccc c = k) l.
Lemma sw_past : forall c k l, 0 < ccc c -> 0 < k -> ccc c <> k -> same_class k l -> sw any (c :: l) (l ++ [c]).
Proof.
  intros c k l C K N. induction l as [|d r IH]; intros F; [apply sw_refl|]. inversion F; subst.
  eapply sw_trans; [apply (sw_one any []); try exact I; auto; lia|]. cbn [app]. apply sw_cons, IH. assumption.
Qed.
Lemma sw_blocks : forall j k l m, 0 < j -> 0 < k -> j <> k -> same_class j l -> same_class k m -> sw any (l ++ m) (m ++ l).
Proof.
  intros j k l m J K N. induction l as [|c l IH]; intros L M; cbn [app]; [rewrite app_nil_r; apply sw_refl|]. inversion L; subst.
  eapply sw_trans; [apply sw_cons, IH; auto|]. change (c :: m ++ l) with ((c :: m) ++ l). replace (m ++ c :: l) with ((m ++ [c]) ++ l) by now rewrite <- app_assoc.
  apply sw_app_r. eapply sw_past; [| | |exact M]; lia.
Qed.
Lemma sw_map : forall (P : Z -> Prop) (f : Z -> list Z) l m, (forall c, P c -> 0 < ccc c -> same_class (ccc c) (f c)) -> sw P l m -> sw any (flat_map f l) (flat_map f m).
Proof.
  intros P f l m F H. induction H as [l|a c d b m Pc Pd C D N H IH]; [apply sw_refl|]. eapply sw_trans; [|exact IH].
  rewrite !flat_map_app. apply sw_app_l. cbn [flat_map]. rewrite !app_assoc. apply sw_app_r. eapply sw_blocks; [exact C|exact D|exact N| |]; auto.
Qed.
Lemma sw_each : forall (f g : Z -> list Z) l, (forall c, In c l -> sw any (f c) (g c)) -> sw any (flat_map f l) (flat_map g l).
Proof.
  intros f g l H. induction l as [|c l IH]; cbn [flat_map]; [apply sw_refl|]. apply sw_app; [apply H; now left|]. apply IH. intros x I. apply H. now right.
Qed.
Lemma flat_map_flat_map : forall (f g : Z -> list Z) l, flat_map g (flat_map f l) = flat_map (fun c => flat_map g (f c)) l.
Proof. intros f g l. induction l as [|c l IH]; [reflexivity|]. cbn [flat_map]. now rewrite flat_map_app, IH. Qed.

(** ** The data *)
(** decompositions are final and keep the class of marks *)
Definition check_final (tc : rtree Z) (td : rtree (option (list Z))) (e : Z * list Z) : bool :=
  let '(k, d) := e in forallb (fun c => list_eqb (tdecomp td c) [c]) d && ((tccc tc k =? 0) || forallb (fun c => tccc tc c =? tccc tc k) d).
Lemma final_checked : (let tc := ccc_tree in let td := decomp_tree in forallb (check_final tc td) ucd_decomp) = true.
Proof. vm_cast_no_check (eq_refl true). Qed.
Lemma final_facts : forall k d, In (k, d) ucd_decomp -> (forall c, In c d -> decomp1 c = [c]) /\ (ccc k <> 0 -> same_class (ccc k) d).
Proof.
  intros k d J. pose proof final_checked as A. cbv zeta in A. pose proof (proj1 (forallb_forall _ _) A _ J) as C. unfold check_final in C.
  rewrite andb_true_iff, orb_true_iff in C. destruct C as (C1 & C2). split.
  - intros c I. pose proof (proj1 (forallb_forall _ _) C1 c I) as E. cbn beta in E. rewrite tdecomp_ok in E. now apply list_eqb_iff.
  - rewrite tccc_ok in C2. intros N. destruct C2 as [C2|C2]; [apply Z.eqb_eq in C2; contradiction|]. apply Forall_forall. intros c I.
    pose proof (proj1 (forallb_forall _ _) C2 c I) as E. cbn beta in E. rewrite tccc_ok in E. now apply Z.eqb_eq.
Qed.
Definition jamo : list Z := map (fun n => 4352 + Z.of_nat n) (seq 0 19) ++ map (fun n => 4449 + Z.of_nat n) (seq 0 21) ++ map (fun n => 4520 + Z.of_nat n) (seq 0 27).
Lemma range_in : forall b n c, b <= c < b + Z.of_nat n -> In c (map (fun k => b + Z.of_nat k) (seq 0 n)).
Proof. intros b n c H. apply in_map_iff. exists (Z.to_nat (c - b)). split; [lia|]. apply in_seq. lia. Qed.
Lemma hangul_jamo : forall c x, hangul c = true -> In x (decomp1 c) -> In x jamo.
Proof.
  intros c x H I. pose proof (hangul_parts c H) as (_ & A & B & T & _). unfold decomp1 in I. rewrite H in I. cbv zeta in I. unfold jamo. rewrite !in_app_iff.
  destruct I as [<-|[<-|I]].
  - left. apply range_in. lia.
  - right. left. apply range_in. lia.
  - right. right. destruct ((c - 44032) mod 28 =? 0) eqn:E; [destruct I|]. apply Z.eqb_neq in E. destruct I as [<-|[]]. apply range_in. lia.
Qed.
Lemma jamo_final : forallb (fun c => list_eqb (decomp1 c) [c]) jamo = true.
Proof. vm_compute. reflexivity. Qed.
Lemma flat_map_same : forall (f : Z -> list Z) l, (forall c, In c l -> f c = [c]) -> flat_map f l = l.
Proof. intros f l H. induction l as [|c l IH]; [reflexivity|]. cbn [flat_map]. rewrite H by now left. cbn [app]. f_equal. apply IH. intros x I. apply H. now right. Qed.
Lemma decomp_final : forall c, flat_map decomp1 (decomp1 c) = decomp1 c.
Proof.
  intros c. apply flat_map_same. intros x I. destruct (decomp_cases c) as [E|[(_ & E)|(_ & J)]].
  - apply list_eqb_iff. exact (proj1 (forallb_forall _ _) jamo_final x (hangul_jamo c x E I)).
  - rewrite E in I. destruct I as [<-|[]]. exact E.
  - exact (proj1 (final_facts _ _ J) x I).
Qed.
Lemma decomp_class : forall c, 0 < ccc c -> same_class (ccc c) (decomp1 c).
Proof.
  intros c H. destruct (decomp_cases c) as [E|[(_ & E)|(_ & J)]].
  - assert (ccc c = 0) by (apply ccc_hangul; unfold hangul in E; rewrite andb_true_iff, !Z.leb_le in E; lia). lia.
  - rewrite E. repeat constructor.
  - apply (proj2 (final_facts _ _ J)). lia.
Qed.

(** Canonical equivalence is equality of canonical decompositions. *)
Lemma canon_iff : forall l m, canon l m <-> nfd l = nfd m.
Proof.
  intros l m. unfold nfd. split.
  - intros H. rewrite order_iff. induction H.
    + apply sw_refl.
    + now apply sw_sym.
    + eapply sw_trans; eauto.
    + rewrite !flat_map_app. cbn [flat_map]. rewrite decomp_final. apply sw_refl.
    + apply (sw_map any); [intros; now apply decomp_class|]. apply sw_one; try exact I; auto.
  - rewrite order_iff. intros H.
    assert (D : forall x a, canon (a ++ x) (a ++ flat_map decomp1 x)).
    { induction x as [|c x IH]; intros a; cbn [flat_map]; [apply canon_refl|]. eapply canon_trans; [apply canon_decompose|]. rewrite !app_assoc. apply IH. }
    assert (S : forall x y, sw any x y -> canon x y).
    { induction 1; [apply canon_refl|]. eapply canon_trans; [apply canon_reorder; auto|exact IHsw]. }
    eapply canon_trans; [apply (D l [])|]. eapply canon_trans; [apply S, H|]. apply canon_sym, (D m []).
Qed.

(** ** The mapping of UTS 46 *)
Definition rmap (tr : bool) (c : Z) (r : row) : list Z :=
  match r_status r with
  | Valid | Disallowed | Std3Valid => [c]
  | Mapped | Std3Mapped => r_map r
  | Ignored => []
  | Deviation => if tr then r_map r else [c]
  end.
Definition tmap (t : tree) (tr : bool) (c : Z) : option (list Z) := match tfind t c with Some r => Some (rmap tr c r) | None => None end.
Local Transparent mapping_of status_of.
Lemma tmap_ok : forall tr c l, tmap idna_tree tr c = Some l -> map1 tr false c = l.
Proof.
  intros tr c l H. unfold tmap in H. destruct (tfind idna_tree c) as [r|] eqn:E; [|discriminate H]. apply tree_row in E. injection H as <-.
  unfold map1, rmap, status_of, mapping_of. rewrite E. reflexivity.
Qed.
Local Opaque mapping_of status_of.
Fixpoint tmaps (t : tree) (tr : bool) (l : list Z) : option (list Z) :=
  match l with
  | [] => Some []
  | c :: r => match tmap t tr c, tmaps t tr r with Some x, Some y => Some (x ++ y) | _, _ => None end
  end.
Lemma tmaps_ok : forall tr l x, tmaps idna_tree tr l = Some x -> flat_map (map1 tr false) l = x.
Proof.
  intros tr l. induction l as [|c l IH]; intros x H; cbn [tmaps flat_map] in *; [now injection H|].
  destruct (tmap idna_tree tr c) as [y|] eqn:E; [|discriminate H]. destruct (tmaps idna_tree tr l) as [z|]; [|discriminate H]. injection H as <-.
  now rewrite (tmap_ok _ _ _ E), (IH z eq_refl).
Qed.
Definition check_mapped (t : tree) (tc : rtree Z) (td : rtree (option (list Z))) (tr : bool) (e : Z * list Z) : bool :=
  let '(k, d) := e in
  match tmap t tr k, tmaps t tr d with
  | Some x, Some y => list_eqb (torder tc (flat_map (tdecomp td) x)) (torder tc (flat_map (tdecomp td) y))
  | _, _ => false
  end.
Definition check_marks (t : tree) (tc : rtree Z) (td : rtree (option (list Z))) (tr : bool) (e : Z * Z * Z) : bool :=
  let '(lo, hi, v) := e in
  forallb (fun c => (c =? iota_below) || match tmap t tr c with Some x => forallb (fun d => tccc tc d =? v) (flat_map (tdecomp td) x) | None => false end)
    (map (fun n => lo + Z.of_nat n) (seq 0 (Z.to_nat (hi - lo + 1)))).
Definition check_jamo (t : tree) (tr : bool) (c : Z) : bool := match tmap t tr c with Some x => list_eqb x [c] | None => false end.
Definition all_checks (t : tree) (tc : rtree Z) (td : rtree (option (list Z))) (tr : bool) : bool :=
  forallb (check_mapped t tc td tr) ucd_decomp && (forallb (check_marks t tc td tr) ucd_ccc && forallb (check_jamo t tr) jamo).
Lemma canon_checked : (let t := idna_tree in let tc := ccc_tree in let td := decomp_tree in all_checks t tc td false && all_checks t tc td true) = true.
Proof. vm_cast_no_check (eq_refl true). Qed.
Lemma canon_checks : forall tr, all_checks idna_tree ccc_tree decomp_tree tr = true.
Proof. intros tr. pose proof canon_checked as H. cbv zeta in H. apply andb_true_iff in H. destruct H as (H1 & H2). destruct tr; [exact H2|exact H1]. Qed.
Lemma hangul_valid : (let t := idna_tree in match tfind t 44032 with Some r => status_eqb (r_status r) Valid && (r_lo r <=? 44032) && (55203 <=? r_hi r) | None => false end) = true.
Proof. vm_compute. reflexivity. Qed.
