(** Names and their normal forms, and where canonically equivalent names are
    told apart. *)
From Coq Require Import Lia Bool.
From Verif Require Import Base PunyBase Uenv DataTypes DataTr46 SpecUtf8 SpecTables SpecLabel SpecLookup SpecNfc DataUcd Ucd UcdProofs UcdTree Gentr46 Tr46Facts
  Utf8 Utf8Proofs MapProofs BaseTop StableProofs Idna Lookup LabelProofs LookupProofs LookupTr46 LookupMisc LookupMap SpecToAscii ToAsciiProofs SpecCanon CanonProofs CanonTop CanonNfc.

Definition dst (t : tree) (c : Z) : option bool := match tfind t c with Some r => Some (status_eqb (r_status r) Disallowed) | None => None end.
Definition bad (t : tree) (c : Z) : bool := match dst t c with Some true => true | _ => false end.
Definition good (t : tree) (c : Z) : bool := match dst t c with Some false => true | _ => false end.
Definition kept_decomp (t : tree) (e : Z * list Z) : bool := let '(k, d) := e in bad t k || forallb (good t) d.
Definition kept_comp (t : tree) (e : Z * Z * Z) : bool := let '(a, b, v) := e in good t v || bad t a || bad t b.
Lemma kept_checked : (let t := idna_tree in forallb (kept_decomp t) ucd_decomp && forallb (kept_comp t) ucd_comp) = true.
Proof. vm_cast_no_check (eq_refl true). Qed.
Local Transparent status_of.
Lemma bad_ok : forall c, bad idna_tree c = true -> status_of c = Disallowed.
Proof.
  intros c H. unfold bad, dst in H. destruct (tfind idna_tree c) as [r|] eqn:E; [|discriminate H]. apply tree_row in E. unfold status_of. rewrite E.
  destruct (r_status r); try discriminate H; reflexivity.
Qed.
Lemma good_ok : forall c, good idna_tree c = true -> status_of c <> Disallowed.
Proof.
  intros c H. unfold good, dst in H. destruct (tfind idna_tree c) as [r|] eqn:E; [|discriminate H]. apply tree_row in E. unfold status_of. rewrite E.
  destruct (r_status r); try discriminate H; discriminate.
Qed.
Local Opaque status_of.
Lemma jamo_allowed : forall c, In c jamo -> status_of c <> Disallowed.
Proof.
  intros c I D. destruct (canon_parts false) as (_ & _ & C). specialize (C c I).
  assert (good idna_tree c = true) as G; [|exact (good_ok _ G D)].
  revert c I D C. intros c I _ _. revert c I. apply forallb_forall. vm_compute. reflexivity.
Qed.
Lemma hangul_allowed : forall c, hangul c = true -> status_of c <> Disallowed.
Proof.
  intros c H. pose proof hangul_valid as V. cbv zeta in V. destruct (tfind idna_tree 44032) as [r|] eqn:E; [|discriminate V].
  rewrite !andb_true_iff, !Z.leb_le in V. destruct V as ((V1 & V2) & V3). apply tree_row in E.
  assert (In r idna_rows) as I by (unfold idna_row in E; now apply find_some in E). unfold hangul in H. rewrite andb_true_iff, !Z.leb_le in H.
  Local Transparent status_of. unfold status_of. rewrite (idna_row_unique r c I) by lia. destruct (r_status r); try discriminate V1. discriminate. Local Opaque status_of.
Qed.
Lemma decomp_allowed : forall c, status_of c <> Disallowed -> allowed (decomp1 c).
Proof.
  intros c H. apply Forall_forall. intros x I. destruct (decomp_cases c) as [E|[(_ & E)|(_ & J)]].
  - apply jamo_allowed. eapply hangul_jamo; eauto.
  - rewrite E in I. destruct I as [<-|[]]. exact H.
  - pose proof kept_checked as K. cbv zeta in K. apply andb_true_iff in K. destruct K as (K & _). pose proof (proj1 (forallb_forall _ _) K _ J) as C.
    unfold kept_decomp in C. apply orb_true_iff in C. destruct C as [C|C]; [apply bad_ok in C; contradiction|].
    apply good_ok. exact (proj1 (forallb_forall _ _) C x I).
Qed.
Lemma comp_allowed : forall a b v, comp a b = Some v -> status_of a <> Disallowed -> status_of b <> Disallowed -> status_of v <> Disallowed.
Proof.
  intros a b v H A B. assert (J : hangul v = true \/ In (a, b, v) ucd_comp).
  { unfold comp in H. destruct ((4352 <=? a) && (a <=? 4370) && (4449 <=? b) && (b <=? 4469)) eqn:E1.
    - left. apply some_inj in H. rewrite !andb_true_iff, !Z.leb_le in E1. unfold hangul. rewrite andb_true_iff, !Z.leb_le. lia.
    - destruct (hangul a && ((a - 44032) mod 28 =? 0) && (4520 <=? b) && (b <=? 4546)) eqn:E2.
      + left. apply some_inj in H. unfold hangul in *. rewrite !andb_true_iff, !Z.leb_le, Z.eqb_eq in *. pose proof (Z.div_mod (a - 44032) 28 ltac:(lia)).
        assert ((a - 44032) / 28 <= 398) by lia. lia.
      + right. now apply assoc2_in. }
  destruct J as [J|J]; [now apply hangul_allowed|].
  pose proof kept_checked as K. cbv zeta in K. apply andb_true_iff in K. destruct K as (_ & K). pose proof (proj1 (forallb_forall _ _) K _ J) as C.
  unfold kept_comp in C. rewrite !orb_true_iff in C. destruct C as [[C|C]|C]; [now apply good_ok|apply bad_ok in C; contradiction|apply bad_ok in C; contradiction].
Qed.
Lemma sink_all : forall (P : Z -> Prop) c l, P c -> Forall P l -> Forall P (sink c l).
Proof. intros P c l H F. induction F as [|d r Hd F IH]; cbn [sink]; [auto|]. destruct ((0 <? ccc d) && (ccc d <? ccc c)); auto. Qed.
Lemma nfd_allowed : forall l, allowed l -> allowed (nfd l).
Proof.
  intros l F. unfold nfd, allowed in *. assert (G : Forall (fun c => status_of c <> Disallowed) (flat_map decomp1 l)).
  { induction F as [|c l H F IH]; cbn [flat_map]; [constructor|]. apply Forall_app. split; [now apply decomp_allowed|exact IH]. }
  revert G. generalize (flat_map decomp1 l) as m. induction m as [|c m IH]; intros G; cbn [order]; [constructor|]. inversion G; subst. apply sink_all; auto.
Qed.
Lemma compose_allowed : forall l s p, status_of s <> Disallowed -> allowed p -> allowed l -> allowed (compose s p l).
Proof.
  unfold allowed. induction l as [|c l IH]; intros s p S P L; cbn [compose]; [constructor; [exact S|now apply Forall_rev]|]. inversion L as [|? ? L1 L2]; subst.
  assert (R : Forall (fun c => status_of c <> Disallowed) (if ccc c =? 0 then s :: rev p ++ compose c [] l else compose s (c :: p) l)).
  { destruct (ccc c =? 0); [constructor; [exact S|]; apply Forall_app; split; [now apply Forall_rev|apply IH; auto]|apply IH; auto]. }
  destruct (blocked p c); [exact R|]. destruct (comp s c) as [x|] eqn:E; [|exact R]. apply IH; auto. eapply comp_allowed; eauto.
Qed.
Lemma nfc_allowed : forall l, allowed l -> allowed (nfc l).
Proof.
  intros l F. change (nfc l) with (recompose (nfd l)). pose proof (nfd_allowed _ F) as G. revert G. generalize (nfd l) as m. unfold allowed.
  induction m as [|c m IH]; intros G; cbn [recompose]; [constructor|]. inversion G; subst. destruct (ccc c =? 0); [apply compose_allowed; auto; constructor|auto].
Qed.
(** A name and its normal form. *)
Lemma lookup_normal : forall s s' l l' f, c_string s -> c_string s' -> utf8 l s -> utf8 l' s' -> l' = nfc l \/ l' = nfd l -> opt_no_tr46 f = false -> opt_std3 f = false ->
  iota_free l -> allowed l -> mapped_length f l < 255 -> mapped_length f l' < 255 -> lookup_u8 ucd s f = lookup_u8 ucd s' f.
Proof.
  intros s s' l l' f C C' U U' E N S F A Z Z'. assert (CA : canon l l') by (apply canon_sym; destruct E as [->| ->]; [apply canon_nfc|apply canon_nfd]).
  assert (A' : allowed l') by (destruct E as [->| ->]; [now apply nfc_allowed|now apply nfd_allowed]).
  apply (lookup_canon s s' l l'); auto.
  - now apply iota_free_order.
  - apply iota_free_order. eapply iota_free_canon; eauto.
Qed.
Lemma lookup_accepted : forall s1 s2 l1 l2 f r1 r2, c_string s1 -> c_string s2 -> zlen s1 < two64 -> zlen s2 < two64 -> utf8 l1 s1 -> utf8 l2 s2 -> opt_no_tr46 f = false ->
  opt_std3 f = false -> canon l1 l2 -> iota_in_order l1 -> iota_in_order l2 -> lookup_u8 ucd s1 f = Ok r1 -> lookup_u8 ucd s2 f = Ok r2 -> r1 = r2.
Proof.
  intros s1 s2 l1 l2 f r1 r2 C1 C2 Z1 Z2 U1 U2 N S CA O1 O2 H1 H2.
  destruct (accepted_facts _ _ _ _ C1 Z1 N U1 H1) as (A1 & B1). destruct (accepted_facts _ _ _ _ C2 Z2 N U2 H2) as (A2 & B2).
  assert (lookup_u8 ucd s1 f = lookup_u8 ucd s2 f) as E; [|congruence].
  apply (lookup_canon s1 s2 l1 l2); auto.
Qed.
(** Cases. *)
Definition iota_1 : list Z := [0xCE; 0xB1; 0xCD; 0x85; 0xCC; 0x81].
Definition iota_2 : list Z := [0xCE; 0xB1; 0xCC; 0x81; 0xCD; 0x85].
Ltac strings := repeat constructor; lia.
Ltac utf8s := apply u8_to_u32_iff; [repeat constructor; lia|vm_compute; reflexivity].
Lemma told_apart_iota : exists s1 s2 l1 l2 r1 r2, c_string s1 /\ c_string s2 /\ utf8 l1 s1 /\ utf8 l2 s2 /\ canon l1 l2 /\
  lookup_u8 ucd s1 0 = Ok r1 /\ lookup_u8 ucd s2 0 = Ok r2 /\ r1 <> r2.
Proof.
  exists iota_1, iota_2, [0x3B1; 0x345; 0x301], [0x3B1; 0x301; 0x345]. do 2 eexists.
  split; [strings|]. split; [strings|]. split; [utf8s|]. split; [utf8s|]. split; [apply canon_iff; vm_compute; reflexivity|].
  split; [vm_compute; reflexivity|]. split; [vm_compute; reflexivity|]. intros H. discriminate H.
Qed.
Lemma told_apart_nfc : exists s1 s2 l r1 r2, c_string s1 /\ c_string s2 /\ utf8 l s1 /\ utf8 (nfc l) s2 /\ iota_in_order l /\
  lookup_u8 ucd s1 0 = Ok r1 /\ lookup_u8 ucd s2 0 = Ok r2 /\ r1 <> r2.
Proof.
  exists [0xCE; 0xB1; 0xCC; 0x96; 0xCD; 0x85], [0xE1; 0xBE; 0xB3; 0xCC; 0x96], [0x3B1; 0x316; 0x345]. do 2 eexists.
  assert (nfc [0x3B1; 0x316; 0x345] = [0x1FB3; 0x316]) as -> by (vm_compute; reflexivity).
  split; [strings|]. split; [strings|]. split; [utf8s|]. split; [utf8s|]. split.
  { assert (flat_map decomp1 [0x3B1; 0x316; 0x345] = [0x3B1; 0x316; 0x345]) as E by (vm_compute; reflexivity). unfold iota_in_order. rewrite E. cbn [iota_last]. unfold iota_below.
    repeat split; intros X; discriminate X. }
  split; [vm_compute; reflexivity|]. split; [vm_compute; reflexivity|]. intros H. discriminate H.
Qed.
Lemma told_apart_std3 : exists s1 s2 l r1 r2, c_string s1 /\ c_string s2 /\ utf8 l s1 /\ utf8 (nfd l) s2 /\ iota_free l /\ lookup_u8 ucd s1 32 = Ok r1 /\ lookup_u8 ucd s2 32 = Ok r2 /\ r1 <> r2.
Proof.
  exists [97; 0xE2; 0x89; 0xAE; 98], [97; 60; 0xCC; 0xB8; 98], [97; 0x226E; 98]. do 2 eexists.
  assert (nfd [97; 0x226E; 98] = [97; 60; 0x338; 98]) as -> by (vm_compute; reflexivity).
  split; [strings|]. split; [strings|]. split; [utf8s|]. split; [utf8s|]. split.
  { unfold iota_free. assert (flat_map decomp1 [97; 0x226E; 98] = [97; 60; 0x338; 98]) as -> by (vm_compute; reflexivity). unfold iota_below. cbn [In]. lia. }
  split; [vm_compute; reflexivity|]. split; [vm_compute; reflexivity|]. intros H. discriminate H.
Qed.
Lemma told_apart_disallowed : exists s1 s2 l1 l2 r, c_string s1 /\ c_string s2 /\ utf8 l1 s1 /\ utf8 l2 s2 /\ canon l1 l2 /\ lookup_u8 ucd s1 0 = Fail IDN2_DISALLOWED /\ lookup_u8 ucd s2 0 = Ok r.
Proof.
  exists [0xF0; 0xAF; 0xA1; 0xA8], [0xE3; 0x9B; 0xBC], [0x2F868], [0x36FC]. eexists.
  split; [strings|]. split; [strings|]. split; [utf8s|]. split; [utf8s|]. split; [apply canon_iff; vm_compute; reflexivity|].
  split; [vm_compute; reflexivity|]. vm_compute. reflexivity.
Qed.
(** Four labels of 51 letters and four times U+01D6. *)
Definition four (l : list Z) : list Z := (l ++ [46]) ++ (l ++ [46]) ++ (l ++ [46]) ++ l.
Definition long_1 : list Z := four (repeat 97 51 ++ repeat 0x1D6 4).
Definition long_2 : list Z := four (repeat 97 51 ++ concat (repeat [0x75; 0x308; 0x304] 4)).
Definition long_s1 : list Z := four (repeat 97 51 ++ concat (repeat [0xC7; 0x96] 4)).
Definition long_s2 : list Z := four (repeat 97 51 ++ concat (repeat [0x75; 0xCC; 0x88; 0xCC; 0x84] 4)).
Lemma c_string_checked : forall s, forallb (fun b => (0 <? b) && (b <=? 255)) s = true -> c_string s.
Proof. intros s H. apply Forall_forall. intros b I. pose proof (proj1 (forallb_forall _ _) H b I) as E. cbn beta in E. rewrite andb_true_iff, Z.ltb_lt, Z.leb_le in E. exact E. Qed.
Lemma told_apart_length : exists s1 s2 l r, c_string s1 /\ c_string s2 /\ utf8 l s1 /\ utf8 (nfd l) s2 /\ iota_free l /\
  lookup_u8 ucd s1 0 = Ok r /\ lookup_u8 ucd s2 0 = Fail IDN2_TOO_BIG_DOMAIN.
Proof.
  assert (E : nfd long_1 = long_2) by (vm_compute; reflexivity). assert (C1 : c_string long_s1) by (apply c_string_checked; vm_compute; reflexivity).
  assert (C2 : c_string long_s2) by (apply c_string_checked; vm_compute; reflexivity).
  assert (R : match lookup_u8 ucd long_s1 0 with Ok _ => true | _ => false end = true) by (vm_compute; reflexivity).
  destruct (lookup_u8 ucd long_s1 0) as [r| | |] eqn:L; try discriminate R. exists long_s1, long_s2, long_1, r. rewrite E.
  split; [exact C1|]. split; [exact C2|]. split; [apply u8_to_u32_iff; [now apply c_string_bytes|vm_compute; reflexivity]|].
  split; [apply u8_to_u32_iff; [now apply c_string_bytes|vm_compute; reflexivity]|].
  split. { unfold iota_free. intros I. assert (forallb (fun c => negb (c =? iota_below)) (flat_map decomp1 long_1) = true) as F by (vm_compute; reflexivity).
    pose proof (proj1 (forallb_forall _ _) F _ I) as X. cbn beta in X. rewrite Z.eqb_refl in X. discriminate X. }
  split; [exact L|]. vm_compute. reflexivity.
Qed.
