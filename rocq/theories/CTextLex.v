(** Reading back, as C, what printf writes. *)
From Coq Require Import String Ascii Lia.
From Verif Require Import Base DataTypes Gentr46 Gentr46Print Tables Scan GenText SpecScan SpecCText.
Local Open Scope list_scope.
Local Open Scope Z_scope.

(** A text with tokens of its own: whatever follows. *)
Definition pre (ts : list ctoken) (o : option (list ctoken)) : option (list ctoken) := fold_right then_ o ts.
Definition lexes (s : list Z) (ts : list ctoken) : Prop := forall r, tokens Plain (s ++ r) = pre ts (tokens Plain r).

Lemma pre_app : forall a b o, pre (a ++ b) o = pre a (pre b o).
Proof. intros. unfold pre. apply fold_right_app. Qed.
Lemma pre_some : forall a l, pre a (Some l) = Some (a ++ l).
Proof. induction a; intros; [reflexivity|]. cbn [pre fold_right app]. change (fold_right then_ (Some l) a0) with (pre a0 (Some l)). rewrite IHa. reflexivity. Qed.
Lemma lexes_app : forall s1 s2 t1 t2, lexes s1 t1 -> lexes s2 t2 -> lexes (s1 ++ s2) (t1 ++ t2).
Proof. intros s1 s2 t1 t2 H1 H2 r. rewrite <- app_assoc, H1, H2, pre_app. reflexivity. Qed.
Lemma lexes_nil : lexes [] [].
Proof. intro r. reflexivity. Qed.
Lemma lexes_all : forall s ts, lexes s ts -> tokens Plain s = Some ts.
Proof. intros s ts H. specialize (H []). rewrite app_nil_r in H. rewrite H. cbn [tokens]. rewrite pre_some, app_nil_r. reflexivity. Qed.
Lemma lexes_flat_map : forall {A} (f : A -> list Z) (g : A -> list ctoken) l,
  (forall a, In a l -> lexes (f a) (g a)) -> lexes (flat_map f l) (flat_map g l).
Proof.
  intros A f g. induction l as [|a l IH]; intros H; [apply lexes_nil|].
  apply lexes_app; [apply H; left; reflexivity | apply IH; intros; apply H; right; assumption].
Qed.

Definition wordly (w : list Z) : Prop := Forall (fun c => is_word c = true) w.
Lemma in_word : forall w w0 c r, wordly w -> is_word c = false ->
  tokens (InWord w0) (w ++ c :: r) = then_ (CWord (rev w0 ++ w)) (tokens Plain (c :: r)).
Proof.
  induction w as [|x w IH]; intros w0 c r Hw Hc.
  - cbn [app tokens]. rewrite Hc, app_nil_r. reflexivity.
  - inversion Hw; subst. cbn [app]. cbn [tokens]. rewrite H1. rewrite IH by assumption. cbn [rev]. rewrite <- app_assoc. reflexivity.
Qed.
Lemma word_not_white : forall c, is_word c = true -> is_white c = false.
Proof. intros c H. unfold is_word, is_white in *. lia. Qed.
Lemma lex_word : forall w c r, wordly w -> w <> [] -> is_word c = false ->
  tokens Plain (w ++ c :: r) = then_ (CWord w) (tokens Plain (c :: r)).
Proof.
  intros [|x w] c r Hw Hn Hc; [congruence|]. inversion Hw; subst.
  cbn [app]. cbn [tokens]. rewrite (word_not_white _ H1), H1.
  rewrite in_word by assumption. reflexivity.
Qed.
(** A word and the text behind it, which begins with something else. *)
Lemma lexes_word : forall w c s ts, wordly w -> w <> [] -> is_word c = false -> lexes (c :: s) ts -> lexes (w ++ c :: s) (CWord w :: ts).
Proof.
  intros w c s ts Hw Hn Hc H r. rewrite <- app_assoc. cbn [app]. rewrite lex_word by assumption.
  change (c :: s ++ r) with ((c :: s) ++ r). rewrite H. reflexivity.
Qed.
Lemma lexes_space : forall c, is_white c = true -> lexes [c] [].
Proof. intros c H r. cbn [app tokens]. rewrite H. reflexivity. Qed.
Lemma lexes_spaces : forall s, Forall (fun c => is_white c = true) s -> lexes s [].
Proof. induction s as [|c s IH]; intros H; [apply lexes_nil|]. inversion H; subst. apply (lexes_app [c] s [] []); [apply lexes_space | apply IH]; assumption. Qed.

(** * Numbers *)
Lemma digit_char_value : forall d, 0 <= d < 16 -> digit_value (digit_char d) = d /\ is_word (digit_char d) = true.
Proof. intros d H. unfold digit_char, digit_value, is_word.
  repeat match goal with |- context [if ?b then _ else _] => destruct b eqn:? end; split; lia. Qed.

Lemma digits_aux_spec : forall base fuel x acc, 2 <= base <= 16 -> 0 <= x < base ^ Z.of_nat fuel -> (fuel <> 0)%nat ->
  exists c ds, digits_aux fuel base x acc = c :: ds ++ acc /\ value base (c :: ds ++ acc) 0 = value base acc x /\
    wordly (c :: ds) /\ (x <> 0 -> c <> 48) /\ (x < base -> ds = []) /\ 48 <= c /\ (base = 10 -> c <= 57).
Proof.
  intros base. induction fuel as [|fuel IH]; intros x acc Hb Hx Hf; [congruence|].
  assert (Hm : 0 <= x mod base < base) by (apply Z.mod_pos_bound; lia).
  destruct (digit_char_value (x mod base) ltac:(lia)) as [Hv Hw].
  cbn [digits_aux]. destruct (Z.ltb_spec x base) as [Hl|Hl].
  - exists (digit_char (x mod base)), []. rewrite (Z.mod_small x base) in * by lia. cbn [app value].
    rewrite Hv. replace (x <? base) with true by lia. rewrite Z.mul_0_r. cbn [Z.add].
    repeat split; try reflexivity.
    + constructor; [assumption | constructor].
    + unfold digit_char. destruct (x <? 10) eqn:E; lia.
    + unfold digit_char. destruct (x <? 10) eqn:E; lia.
    + intros ->. unfold digit_char. destruct (x <? 10) eqn:E; lia.
  - assert (Hq : base * (x / base) + x mod base = x) by (symmetry; apply Z.div_mod; lia).
    destruct (IH (x / base) (digit_char (x mod base) :: acc) Hb) as (c & ds & E & V & W & N & _ & L & D).
    + replace (Z.of_nat (S fuel)) with (Z.succ (Z.of_nat fuel)) in Hx by lia. rewrite Z.pow_succ_r in Hx by lia. split; [apply Z.div_pos; lia | apply Z.div_lt_upper_bound; lia].
    + intros ->. cbn in Hx. lia.
    + exists c, (ds ++ [digit_char (x mod base)]). rewrite <- app_assoc. cbn [app]. repeat split.
      * exact E.
      * rewrite V. cbn [value]. rewrite Hv. replace (x mod base <? base) with true by lia. rewrite Hq. reflexivity.
      * inversion W; subst. constructor; [assumption|]. apply Forall_app. split; [assumption | constructor; [assumption | constructor]].
      * intros _. apply N. intro Z0. rewrite Z0 in Hq. lia.
      * intros ?. lia.
      * exact L.
      * exact D.
Qed.
Lemma digits_spec : forall base x, 2 <= base <= 16 -> 0 <= x ->
  exists c ds, digits base x = c :: ds /\ value base (c :: ds) 0 = Some x /\ wordly (c :: ds) /\ (x <> 0 -> c <> 48) /\ (x < base -> ds = []) /\
    48 <= c /\ (base = 10 -> c <= 57).
Proof.
  intros base x Hb Hx. unfold digits.
  destruct (digits_aux_spec base (S (Z.to_nat (Z.log2 x))) x [] Hb) as (c & ds & E & V & R).
  - split; [assumption|]. rewrite Nat2Z.inj_succ, Z2Nat.id by apply Z.log2_nonneg.
    destruct (Z.eq_dec x 0) as [->|Hn]; [cbn; lia|].
    apply Z.lt_le_trans with (2 ^ Z.succ (Z.log2 x)); [apply Z.log2_spec; lia|]. apply Z.pow_le_mono_l. lia.
  - congruence.
  - rewrite app_nil_r in *. exists c, ds. repeat split; try apply R; assumption.
Qed.

Lemma const_dec : forall x, 0 <= x -> constant (fmt_d x) = Some x /\ wordly (fmt_d x) /\ fmt_d x <> [].
Proof.
  intros x Hx. unfold fmt_d. destruct (digits_spec 10 x ltac:(lia) Hx) as (c & ds & -> & V & W & N & S & L & D).
  split; [|split; [assumption | congruence]]. unfold constant. destruct (Z.eqb_spec c 48) as [->|Hc].
  - assert (x = 0) by (destruct (Z.eq_dec x 0); [assumption | exfalso; apply N; congruence]). subst x.
    rewrite S by lia. reflexivity.
  - exact V.
Qed.
Definition hexw (ds : list Z) : list Z := 48 :: 120 :: ds.
Lemma const_hex : forall x, 0 <= x -> constant (hexw (fmt_X x)) = Some x /\ wordly (hexw (fmt_X x)).
Proof.
  intros x Hx. unfold fmt_X, hexw. destruct (digits_spec 16 x ltac:(lia) Hx) as (c & ds & -> & V & W & _).
  split; [exact V|]. repeat constructor; try reflexivity; inversion W; assumption.
Qed.
Lemma const_02 : forall x, 0 <= x -> constant (hexw (fmt_02X x)) = Some x /\ wordly (hexw (fmt_02X x)).
Proof.
  intros x Hx. unfold fmt_02X, hexw. destruct (digits_spec 16 x ltac:(lia) Hx) as (c & ds & -> & V & W & _).
  destruct (x <? 16); split; try exact V; repeat constructor; try reflexivity; inversion W; assumption.
Qed.
