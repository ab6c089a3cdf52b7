(** The order of strverscmp. *)
From Verif Require Import Base Version SpecVersion.

(** Lexicographic comparison. *)
Fixpoint lex (a b : list Z) : comparison :=
  match a, b with
  | [], [] => Eq
  | [], _ => Lt
  | _, [] => Gt
  | x :: a', y :: b' => match x ?= y with Eq => lex a' b' | c => c end
  end.

Lemma lex_refl : forall a, lex a a = Eq.
Proof. induction a as [| x a IH]; cbn; [ reflexivity |]. now rewrite Z.compare_refl. Qed.
Lemma lex_eq : forall a b, lex a b = Eq -> a = b.
Proof.
  induction a as [| x a IH]; intros [| y b] H; cbn in H; try discriminate; [ reflexivity |].
  destruct (x ?= y) eqn:E; try discriminate. apply Z.compare_eq in E. subst. now rewrite (IH b).
Qed.
Lemma lex_anti : forall a b, lex b a = CompOpp (lex a b).
Proof.
  induction a as [| x a IH]; intros [| y b]; cbn; try reflexivity.
  rewrite (Z.compare_antisym x y). destruct (x ?= y); cbn; auto.
Qed.
Lemma lex_trans : forall a b c, lex a b <> Gt -> lex b c <> Gt -> lex a c <> Gt.
Proof.
  induction a as [| x a IH]; intros [| y b] [| z c] H1 H2; cbn in *; try congruence.
  destruct (Z.compare_spec x y), (Z.compare_spec y z), (Z.compare_spec x z); try congruence; try lia; subst; eauto.
Qed.
Lemma lex_app : forall p a b, lex (p ++ a) (p ++ b) = lex a b.
Proof. induction p as [| x p IH]; intros a b; cbn; [ reflexivity |]. rewrite Z.compare_refl. apply IH. Qed.

(** The leading digits of a string. *)
Fixpoint run (s : list Z) : Z := match s with c :: r => if isdigit c then 1 + run r else 0 | [] => 0 end.

Lemma run_nonneg : forall s, 0 <= run s.
Proof. induction s as [| c r IH]; cbn [run]; [ lia |]. destruct (isdigit c); lia. Qed.

(** Comparison keys: strverscmp compares these lexicographically.  An integral
    number counts by its length first; after leading zeroes, the end of the
    digits counts most. *)
Fixpoint key (s : vstate) (l : list Z) : list Z :=
  match l with
  | [] => match s with S_Z => [256; 0] | _ => [0] end
  | c :: r =>
      match s, sym_of c with
      | S_N, SD => 49 :: run l :: c :: key S_I r
      | S_N, _ => c :: key (next_state s (sym_of c)) r
      | S_Z, SX => 256 :: c :: key S_N r
      | _, y => c :: key (next_state s y) r
      end
  end.

(** In the middle of an integral number, its remaining length comes first. *)
Definition ikey (s : vstate) (l : list Z) : list Z := match s with S_I => run l :: key S_I l | _ => key s l end.

Definition sgn (x : Z) : comparison := x ?= 0.

Lemma isdigit_spec : forall c, isdigit c = true <-> 48 <= c <= 57.
Proof. intros c. unfold isdigit. rewrite andb_true_iff, !Z.leb_le. tauto. Qed.
Lemma isdigit_false : forall c, isdigit c = false <-> ~ (48 <= c <= 57).
Proof. intros c. rewrite <- isdigit_spec. destruct (isdigit c); intuition congruence. Qed.

Lemma sym_cases : forall c, (sym_of c = S0 /\ c = 48 /\ isdigit c = true) \/ (sym_of c = SD /\ 49 <= c <= 57 /\ isdigit c = true) \/
  (sym_of c = SX /\ ~ (48 <= c <= 57) /\ isdigit c = false).
Proof.
  intros c. unfold sym_of. destruct (Z.eqb_spec c 48) as [-> | N]; [ now left |]. right.
  destruct (isdigit c) eqn:E; [ left; apply isdigit_spec in E | right; apply isdigit_false in E ]; repeat split; lia.
Qed.

Lemma sgn_sub : forall a b, sgn (a - b) = (a ?= b).
Proof. intros a b. unfold sgn. destruct (Z.compare_spec a b); [ apply Z.compare_eq_iff | apply Z.compare_lt_iff | apply Z.compare_gt_iff ]; lia. Qed.

(** The loop of LEN decides by the lengths of the digit strings. *)
Lemma len_loop_spec : forall r1 r2 d, plain r1 -> plain r2 -> d <> 0 ->
  sgn (len_loop r1 r2 d) = match run r1 ?= run r2 with Eq => sgn d | c => c end.
Proof.
  induction r1 as [| c1 r1 IH]; intros r2 d P1 P2 D.
  - destruct r2 as [| c2 r2]; cbn [len_loop run hd]; [ reflexivity |].
    destruct (isdigit c2) eqn:E2; [| reflexivity ]. pose proof (run_nonneg r2).
    destruct (Z.compare_spec 0 (1 + run r2)); try lia. reflexivity.
  - inversion P1 as [| ? ? C1 P1']; subst. cbn [len_loop run]. destruct (isdigit c1) eqn:E1.
    + destruct r2 as [| c2 r2]; cbn [run].
      * pose proof (run_nonneg r1). destruct (Z.compare_spec (1 + run r1) 0); try lia. reflexivity.
      * inversion P2 as [| ? ? C2 P2']; subst. destruct (isdigit c2) eqn:E2.
        -- rewrite IH by assumption.
           replace (1 + run r1 ?= 1 + run r2) with (run r1 ?= run r2); [ reflexivity |].
           destruct (Z.compare_spec (run r1) (run r2)), (Z.compare_spec (1 + run r1) (1 + run r2)); try lia; reflexivity.
        -- pose proof (run_nonneg r1). destruct (Z.compare_spec (1 + run r1) 0); try lia. reflexivity.
    + destruct r2 as [| c2 r2]; cbn [run hd]; [ reflexivity |].
      destruct (isdigit c2) eqn:E2; [| reflexivity ]. pose proof (run_nonneg r2).
      destruct (Z.compare_spec 0 (1 + run r2)); try lia. reflexivity.
Qed.

Lemma cmp_succ : forall a b, (1 + a ?= 1 + b) = (a ?= b).
Proof. intros a b. destruct (Z.compare_spec a b), (Z.compare_spec (1 + a) (1 + b)); try lia; reflexivity. Qed.

Lemma lex_cons : forall c a b, lex (c :: a) (c :: b) = lex a b.
Proof. intros c a b. cbn [lex]. now rewrite Z.compare_refl. Qed.
Lemma lex_ne : forall c d a b, c <> d -> lex (c :: a) (d :: b) = (c ?= d).
Proof. intros c d a b N. cbn [lex]. destruct (Z.compare_spec c d); congruence. Qed.

(** One equal character. *)
Lemma key_step : forall st c r1 r2,
  lex (ikey st (c :: r1)) (ikey st (c :: r2)) = lex (ikey (next_state st (sym_of c)) r1) (ikey (next_state st (sym_of c)) r2).
Proof.
  intros st c r1 r2. destruct (sym_cases c) as [(S & _ & D) | [(S & _ & D) | (S & _ & D)]];
    destruct st; cbn [ikey key next_state run]; rewrite S, ?D; cbn [ikey next_state];
    rewrite ?lex_cons; try reflexivity; cbn [lex]; rewrite ?cmp_succ, ?Z.compare_refl; reflexivity.
Qed.

(** The first different character. *)
Lemma key_diff : forall st s1 s2, plain s1 -> plain s2 -> hd 0 s1 <> hd 0 s2 ->
  lex (ikey st s1) (ikey st s2) =
  match result_type st (sym_of (hd 0 s1)) (sym_of (hd 0 s2)) with
  | CMP => hd 0 s1 ?= hd 0 s2
  | LEN => match run (tl s1) ?= run (tl s2) with Eq => hd 0 s1 ?= hd 0 s2 | c => c end
  | LESS => Lt
  | MORE => Gt
  end.
Proof.
  assert (Z0 : sym_of 0 = SX) by reflexivity.
  assert (K : forall st s, plain s -> exists t,
    ikey st s = match st, sym_of (hd 0 s) with
                | S_N, SD => 49 :: run s :: hd 0 s :: t
                | S_Z, SX => 256 :: hd 0 s :: t
                | S_I, _ => run s :: hd 0 s :: t
                | _, _ => hd 0 s :: t
                end).
  { intros st [| c r] P; [ destruct st; eexists; reflexivity |].
    destruct (sym_cases c) as [(S & _ & D) | [(S & _ & D) | (S & _ & D)]]; destruct st; cbn [ikey key hd]; rewrite S; eexists; reflexivity. }
  assert (R : forall s, plain s -> run s = match sym_of (hd 0 s) with SX => 0 | _ => 1 + run (tl s) end).
  { intros [| c r] P; [ reflexivity |]. cbn [run hd tl].
    destruct (sym_cases c) as [(S & _ & D) | [(S & _ & D) | (S & _ & D)]]; rewrite S, D; reflexivity. }
  assert (B : forall s, plain s -> 0 <= hd 0 s < 256).
  { intros [| c r] P; cbn [hd]; [ lia |]. inversion P; subst. lia. }
  intros st s1 s2 P1 P2 N.
  destruct (K st s1 P1) as [t1 E1]. destruct (K st s2 P2) as [t2 E2]. rewrite E1, E2. clear E1 E2 K.
  pose proof (R s1 P1) as R1. pose proof (R s2 P2) as R2. pose proof (B s1 P1) as B1. pose proof (B s2 P2) as B2. clear R B.
  pose proof (run_nonneg (tl s1)) as G1. pose proof (run_nonneg (tl s2)) as G2.
  set (c1 := hd 0 s1) in *. set (c2 := hd 0 s2) in *. clearbody c1 c2.
  destruct (sym_cases c1) as [(S1 & V1 & D1) | [(S1 & V1 & D1) | (S1 & V1 & D1)]];
  destruct (sym_cases c2) as [(S2 & V2 & D2) | [(S2 & V2 & D2) | (S2 & V2 & D2)]];
  rewrite S1 in *; rewrite S2 in *; destruct st; cbn [result_type]; rewrite ?R1, ?R2; cbn [lex]; rewrite ?cmp_succ, ?Z.compare_refl;
  repeat match goal with |- context [?a ?= ?b] => destruct (Z.compare_spec a b) end; try lia; try reflexivity; exfalso; lia.
Qed.

Lemma vcmp_key : forall s1 s2 st, plain s1 -> plain s2 -> sgn (vcmp st s1 s2) = lex (ikey st s1) (ikey st s2).
Proof.
  induction s1 as [| c1 r1 IH]; intros s2 st P1 P2.
  - destruct s2 as [| c2 r2]; [ cbn [vcmp hd]; rewrite lex_refl; reflexivity |].
    assert (C : 0 < c2 < 256) by (inversion P2; assumption).
    rewrite key_diff by (cbn [hd]; auto; lia). cbn [vcmp hd tl].
    destruct (Z.eqb_spec (0 - c2) 0) as [X | _]; [ lia |].
    destruct (result_type st (sym_of 0) (sym_of c2)); try reflexivity; [ apply sgn_sub |].
    rewrite len_loop_spec, sgn_sub by (try constructor; try (inversion P2; assumption); lia). reflexivity.
  - assert (C1 : 0 < c1 < 256) by (inversion P1; assumption). assert (P1' : plain r1) by (inversion P1; assumption).
    cbn [vcmp hd]. destruct (Z.eqb_spec (c1 - hd 0 s2) 0) as [E | NE].
    + destruct s2 as [| c2 r2]; cbn [hd tl] in *; [ lia |]. assert (c2 = c1) by lia. subst c2.
      rewrite key_step. apply IH; [ assumption | inversion P2; assumption ].
    + rewrite key_diff by (cbn [hd]; auto; lia). cbn [hd tl].
      destruct (result_type st (sym_of c1) (sym_of (hd 0 s2))); try reflexivity; [ apply sgn_sub |].
      rewrite len_loop_spec, sgn_sub; [ reflexivity | assumption | | lia ].
      destruct s2; cbn [tl]; [ constructor | inversion P2; assumption ].
Qed.

Lemma strverscmp_key : forall a b, plain a -> plain b -> sgn (strverscmp a b) = lex (key S_N a) (key S_N b).
Proof. intros a b A B. unfold strverscmp. now rewrite vcmp_key. Qed.

(** The keys tell strings apart. *)
Lemma key_inj : forall a b st, plain a -> plain b -> lex (ikey st a) (ikey st b) = Eq -> a = b.
Proof.
  induction a as [| c a IH]; intros b st A B E.
  - destruct b as [| d b]; [ reflexivity |]. assert (D : 0 < d < 256) by (inversion B; assumption).
    rewrite key_diff in E by (cbn [hd]; auto; lia). cbn [hd tl] in E. exfalso.
    destruct (result_type st (sym_of 0) (sym_of d)); try discriminate;
    repeat match type of E with context [?x ?= ?y] => destruct (Z.compare_spec x y) end; try discriminate; lia.
  - destruct (Z.eq_dec c (hd 0 b)) as [-> | N].
    + destruct b as [| d b]; cbn [hd] in *; [ inversion A; lia |]. f_equal. rewrite key_step in E.
      apply (IH b _) in E; [ exact E | inversion A; assumption | inversion B; assumption ].
    + rewrite key_diff in E by (cbn [hd]; auto). cbn [hd tl] in E. exfalso.
      destruct (result_type st (sym_of c) (sym_of (hd 0 b))); try discriminate;
      repeat match type of E with context [?x ?= ?y] => destruct (Z.compare_spec x y) end; try discriminate; lia.
Qed.

(** strverscmp is a total order on strings. *)
Lemma verscmp_refl : forall a, strverscmp a a = 0.
Proof. 
  assert (forall a st, vcmp st a a = 0).
  { induction a as [| c a IH]; intros st; cbn [vcmp hd tl]; [ reflexivity |]. rewrite Z.sub_diag, Z.eqb_refl. apply IH. }
  intros a. apply H.
Qed.
Lemma sgn_le : forall x, x <= 0 <-> sgn x <> Gt.
Proof. intros x. unfold sgn. destruct (Z.compare_spec x 0); split; intros; try lia; congruence. Qed.
Lemma verscmp_zero : forall a b, plain a -> plain b -> strverscmp a b = 0 -> a = b.
Proof.
  intros a b A B E. apply (key_inj a b S_N A B). cbn [ikey]. rewrite <- strverscmp_key by assumption. now rewrite E.
Qed.
Lemma verscmp_anti : forall a b, plain a -> plain b -> Z.sgn (strverscmp b a) = - Z.sgn (strverscmp a b).
Proof.
  intros a b A B. pose proof (strverscmp_key a b A B) as K1. pose proof (strverscmp_key b a B A) as K2.
  rewrite lex_anti, <- K1 in K2. unfold sgn in K2. 
  destruct (Z.compare_spec (strverscmp b a) 0), (Z.compare_spec (strverscmp a b) 0); cbn in K2; try discriminate; lia.
Qed.
Lemma verscmp_trans : forall a b c, plain a -> plain b -> plain c ->
  strverscmp a b <= 0 -> strverscmp b c <= 0 -> strverscmp a c <= 0.
Proof.
  intros a b c A B C. rewrite !sgn_le, !strverscmp_key by assumption. apply lex_trans.
Qed.
