(** Releases compare number by number. *)
From Verif Require Import Base Version SpecVersion VersionProofs.

Fixpoint val (d : list Z) : Z := match d with [] => 0 | c :: r => (c - 48) * 10 ^ zlen r + val r end.

Lemma zlen_cons : forall (c : Z) l, zlen (c :: l) = 1 + zlen l.
Proof. intros. unfold zlen. cbn [length]. lia. Qed.
Lemma zlen_nn : forall l : list Z, 0 <= zlen l.
Proof. intros. unfold zlen. lia. Qed.
Lemma pow_succ : forall l : list Z, 10 ^ (1 + zlen l) = 10 * 10 ^ zlen l.
Proof. intros l. rewrite Z.pow_add_r by (try apply zlen_nn; lia). reflexivity. Qed.
Lemma pow_pos : forall l : list Z, 0 < 10 ^ zlen l.
Proof. intros l. apply Z.pow_pos_nonneg; [ lia | apply zlen_nn ]. Qed.

Lemma zlen_snoc : forall (l : list Z) c, zlen (l ++ [c]) = 1 + zlen l.
Proof. intros. unfold zlen. rewrite app_length. cbn [length]. lia. Qed.
Lemma val_snoc : forall d c, val (d ++ [c]) = 10 * val d + (c - 48).
Proof.
  induction d as [| x d IH]; intros c.
  - cbn [app val]. change (zlen (@nil Z)) with 0. rewrite Z.pow_0_r. lia.
  - cbn [app val]. rewrite IH, zlen_snoc, pow_succ. ring.
Qed.
Lemma val_bound : forall d, Forall digit d -> 0 <= val d < 10 ^ zlen d.
Proof.
  induction d as [| c d IH]; intros F; [ cbn [val]; change (zlen (@nil Z)) with 0; rewrite Z.pow_0_r; lia |]. inversion F as [| ? ? C F']; subst. specialize (IH F').
  cbn [val]. rewrite zlen_cons, pow_succ. pose proof (pow_pos d). unfold digit in C. nia.
Qed.

Lemma numeral_val : forall d n, numeral d n -> n = val d /\ Forall digit d /\ 0 <= n /\
  ((d = [48] /\ n = 0) \/ (0 < n /\ 49 <= hd 0 d)).
Proof.
  induction 1 as [| c C | d n c N (E & F & NN & IH) P C].
  - split; [ reflexivity |]. split; [ constructor; [ unfold digit; lia | constructor ] |]. split; [ lia |]. left. split; reflexivity.
  - split; [ cbn [val]; change (zlen (@nil Z)) with 0; rewrite Z.pow_0_r; lia |].
    split; [ constructor; [ unfold digit; lia | constructor ] |]. split; [ lia |]. right. cbn [hd]. lia.
  - split; [ rewrite val_snoc; lia |]. split; [ apply Forall_app; split; [ exact F | constructor; [ exact C | constructor ] ] |].
    unfold digit in C. split; [ lia |]. right. split; [ lia |].
    destruct IH as [[_ X] | [_ H]]; [ lia |]. destruct d as [| x d]; cbn [hd app] in *; lia.
Qed.

Lemma val_low : forall d, Forall digit d -> 49 <= hd 0 d -> 10 ^ (zlen d - 1) <= val d.
Proof.
  intros [| c d] F H; cbn [hd] in H; [ lia |]. inversion F as [| ? ? C F']; subst. cbn [val]. rewrite zlen_cons.
  replace (1 + zlen d - 1) with (zlen d) by lia. pose proof (pow_pos d). pose proof (val_bound d F'). nia.
Qed.

(** Equally long digit strings compare like their values. *)
Lemma lex_val : forall d e x y, Forall digit d -> Forall digit e -> zlen d = zlen e ->
  lex (d ++ x) (e ++ y) = match val d ?= val e with Eq => lex x y | c => c end.
Proof.
  induction d as [| c d IH]; intros [| k e] x y F G L.
  - reflexivity.
  - rewrite zlen_cons in L. change (zlen (@nil Z)) with 0 in L. pose proof (zlen_nn e). lia.
  - rewrite zlen_cons in L. change (zlen (@nil Z)) with 0 in L. pose proof (zlen_nn d). lia.
  - inversion F as [| ? ? C F']; subst. inversion G as [| ? ? K G']; subst. rewrite !zlen_cons in L.
    assert (L' : zlen d = zlen e) by lia. cbn [app lex val]. pose proof (val_bound d F') as B1. pose proof (val_bound e G') as B2.
    rewrite L' in B1 |- *. pose proof (pow_pos e) as PP. unfold digit in C, K.
    destruct (Z.compare_spec c k) as [-> | LT | GT].
    + rewrite IH by assumption. rewrite Zcompare_plus_compat. reflexivity.
    + destruct (Z.compare_spec ((c - 48) * 10 ^ zlen e + val d) ((k - 48) * 10 ^ zlen e + val e)); [ nia | reflexivity | nia ].
    + destruct (Z.compare_spec ((c - 48) * 10 ^ zlen e + val d) ((k - 48) * 10 ^ zlen e + val e)); [ nia | nia | reflexivity ].
Qed.

(** The key of a release. *)
Definition tailkey (rest : list Z) : list Z := match rest with [] => [0] | c :: r => c :: key S_N r end.
Definition nodigit (rest : list Z) : Prop := match rest with [] => True | c :: _ => isdigit c = false end.

Lemma key_I : forall d rest, Forall digit d -> nodigit rest -> key S_I (d ++ rest) = d ++ tailkey rest.
Proof.
  induction d as [| c d IH]; intros rest F N.
  - cbn [app]. destruct rest as [| x r]; [ reflexivity |]. cbn [key tailkey nodigit] in *.
    destruct (sym_cases x) as [(_ & _ & D) | [(_ & _ & D) | (S & _ & _)]]; try congruence. now rewrite S.
  - inversion F as [| ? ? C F']; subst. cbn [app key]. 
    destruct (sym_cases c) as [(S & _ & D) | [(S & _ & D) | (S & V & _)]]; try (unfold digit in C; contradiction);
      rewrite S; cbn [next_state]; rewrite IH by assumption; reflexivity.
Qed.
Lemma run_digits : forall d rest, Forall digit d -> nodigit rest -> run (d ++ rest) = zlen d.
Proof.
  induction d as [| c d IH]; intros rest F N.
  - cbn [app]. destruct rest as [| x r]; [ reflexivity |]. cbn [run nodigit] in *. now rewrite N.
  - inversion F as [| ? ? C F']; subst. cbn [app run]. apply isdigit_spec in C. rewrite C, IH by assumption. now rewrite zlen_cons.
Qed.

Lemma key_num : forall d n rest, numeral d n -> nodigit rest ->
  key S_N (d ++ rest) = (if n =? 0 then [48; 256] else 49 :: zlen d :: d) ++ tailkey rest.
Proof.
  intros d n rest N ND. destruct (numeral_val d n N) as (E & F & NN & [[-> ->] | [P H]]).
  - cbn [app]. destruct rest as [| x r]; [ reflexivity |]. cbn [key tailkey nodigit] in *. change (sym_of 48) with S0. cbn [next_state].
    destruct (sym_cases x) as [(_ & _ & D) | [(_ & _ & D) | (S & _ & _)]]; try congruence. now rewrite S.
  - destruct (Z.eqb_spec n 0); [ lia |]. destruct d as [| c d]; cbn [hd] in H; [ lia |].
    inversion F as [| ? ? C F']; subst. cbn [app key].
    destruct (sym_cases c) as [(_ & V & _) | [(S & _ & _) | (_ & V & _)]]; [ lia | | unfold digit in C; contradiction ].
    rewrite S, key_I by assumption. change (c :: d ++ rest) with ((c :: d) ++ rest). rewrite run_digits by assumption. reflexivity.
Qed.

Lemma lex_num : forall d n e m x y, numeral d n -> numeral e m ->
  lex ((if n =? 0 then [48; 256] else 49 :: zlen d :: d) ++ x) ((if m =? 0 then [48; 256] else 49 :: zlen e :: e) ++ y) =
  match n ?= m with Eq => lex x y | c => c end.
Proof.
  intros d n e m x y N M. destruct (numeral_val d n N) as (E1 & F & N0 & A). destruct (numeral_val e m M) as (E2 & G & M0 & B).
  destruct (Z.eqb_spec n 0) as [-> | NZ], (Z.eqb_spec m 0) as [-> | MZ].
  - reflexivity.
  - cbn [app lex]. destruct (Z.compare_spec 0 m); [ lia | reflexivity | lia ].
  - cbn [app lex]. destruct (Z.compare_spec n 0); [ lia | lia | reflexivity ].
  - destruct A as [[_ A] | [PA A]]; [ lia |]. destruct B as [[_ B] | [PB B]]; [ lia |].
    cbn [app]. rewrite lex_cons. cbn [lex]. rewrite E1, E2.
    pose proof (val_bound d F) as V1. pose proof (val_bound e G) as V2. pose proof (val_low d F A) as W1. pose proof (val_low e G B) as W2.
    destruct (Z.compare_spec (zlen d) (zlen e)) as [L | L | L].
    + now apply lex_val.
    + assert (10 ^ zlen d <= 10 ^ (zlen e - 1)) by (apply Z.pow_le_mono_r; lia).
      destruct (Z.compare_spec (val d) (val e)); [ lia | reflexivity | lia ].
    + assert (10 ^ zlen e <= 10 ^ (zlen d - 1)) by (apply Z.pow_le_mono_r; lia).
      destruct (Z.compare_spec (val d) (val e)); [ lia | lia | reflexivity ].
Qed.

Lemma lex_release : forall s v t w, release s v -> release t w -> lex (key S_N s) (key S_N t) = lex v w.
Proof.
  assert (K1 : forall d n, numeral d n -> key S_N d = (if n =? 0 then [48; 256] else 49 :: zlen d :: d) ++ [0]).
  { intros d n N. rewrite <- (app_nil_r d) at 1. now rewrite (key_num d n). }
  assert (K2 : forall d n s, numeral d n -> key S_N (d ++ 46 :: s) = (if n =? 0 then [48; 256] else 49 :: zlen d :: d) ++ 46 :: key S_N s).
  { intros d n s N. now rewrite (key_num d n). }
  intros s v t w R. revert t w. induction R as [d n N | d n s v N R IH]; intros t w Q; destruct Q as [e m M | e m t w M Q].
  - rewrite (K1 d n), (K1 e m), lex_num by assumption. reflexivity.
  - rewrite (K1 d n), (K2 e m), lex_num by assumption. cbn [lex]. destruct (n ?= m); try reflexivity.
    destruct w; [ inversion Q | reflexivity ].
  - rewrite (K2 d n), (K1 e m), lex_num by assumption. cbn [lex]. destruct (n ?= m); try reflexivity.
    destruct v; [ inversion R | reflexivity ].
  - rewrite (K2 d n), (K2 e m), lex_num by assumption. rewrite lex_cons. cbn [lex]. destruct (n ?= m); try reflexivity.
    now apply IH.
Qed.

Lemma numeral_plain : forall d n, numeral d n -> plain d.
Proof.
  intros d n N. destruct (numeral_val d n N) as (_ & F & _). unfold plain. revert F. apply Forall_impl. unfold digit. intros; lia.
Qed.
Lemma release_plain : forall s v, release s v -> plain s.
Proof.
  induction 1 as [d n N | d n s v N R IH]; [ eapply numeral_plain; eassumption |].
  apply Forall_app. split; [ eapply numeral_plain; eassumption |]. constructor; [ lia | exact IH ].
Qed.

Lemma lex_not_newer : forall v w, lex v w <> Gt <-> not_newer v w.
Proof.
  induction v as [| a v IH]; intros [| b w]; cbn [lex].
  - split; intros; [ constructor | discriminate ].
  - split; intros; [ constructor | discriminate ].
  - split; [ congruence | intros H; inversion H ].
  - destruct (Z.compare_spec a b) as [-> | L | L].
    + rewrite IH. split; [ apply nn_same |]. intros H. inversion H; subst; [ lia | assumption ].
    + split; intros; [ now apply nn_less | discriminate ].
    + split; [ congruence |]. intros H. inversion H; subst; lia.
Qed.

Lemma release_order : forall s v t w, release s v -> release t w -> (strverscmp s t <= 0 <-> not_newer v w).
Proof.
  intros s v t w R Q. rewrite sgn_le, strverscmp_key, (lex_release s v t w) by (try assumption; eapply release_plain; eassumption).
  apply lex_not_newer.
Qed.

Lemma check_release : forall version vv req rv, release version vv -> release req rv ->
  (not_newer rv vv -> check_version version (Some req) = Some version) /\
  (~ not_newer rv vv -> check_version version (Some req) = None).
Proof.
  intros version vv req rv V R. pose proof (release_order req rv version vv R V) as O. cbn [check_version].
  destruct (Z.leb_spec (strverscmp req version) 0); split; intros X; try reflexivity; exfalso; [ tauto |].
  apply O in X. lia.
Qed.

Lemma check_order : forall version, plain version ->
  check_version version None = Some version /\
  check_version version (Some version) = Some version /\
  (forall r, check_version version r = Some version \/ check_version version r = None) /\
  (forall r, plain r -> check_version version (Some r) = None -> check_version r (Some version) = Some r) /\
  (forall r, plain r -> r <> version -> check_version version (Some r) = Some version -> check_version r (Some version) = None) /\
  (forall newer r, plain newer -> plain r -> check_version newer (Some version) = Some newer ->
     check_version version (Some r) = Some version -> check_version newer (Some r) = Some newer).
Proof.
  intros v P. split; [ reflexivity |]. split; [ cbn; now rewrite verscmp_refl |]. split.
  { intros [r |]; cbn; [ destruct (strverscmp r v <=? 0); auto | now left ]. }
  assert (A : forall r, plain r -> Z.sgn (strverscmp v r) = - Z.sgn (strverscmp r v)) by (intros r R; exact (verscmp_anti r v R P)).
  split; [| split ].
  - intros r R. cbn. specialize (A r R). destruct (Z.leb_spec (strverscmp r v) 0); [ discriminate | intros _ ].
    destruct (Z.leb_spec (strverscmp v r) 0); [ reflexivity | lia ].
  - intros r R N. cbn. specialize (A r R). destruct (Z.leb_spec (strverscmp r v) 0); [ intros _ | discriminate ].
    assert (strverscmp r v <> 0) by (intros E; apply N; now apply verscmp_zero).
    destruct (Z.leb_spec (strverscmp v r) 0); [ lia | reflexivity ].
  - intros w r W R. cbn. destruct (Z.leb_spec (strverscmp v w) 0); [ intros _ | discriminate ].
    destruct (Z.leb_spec (strverscmp r v) 0); [ intros _ | discriminate ].
    assert (strverscmp r w <= 0) by (apply (verscmp_trans r v w); assumption).
    destruct (Z.leb_spec (strverscmp r w) 0); [ reflexivity | lia ].
Qed.

(** 2.10.0 is newer than 2.3.2, which is newer than 2.3. *)
Lemma case_release : release [50;46;51;46;50] [2;3;2] /\ release [50;46;49;48;46;48] [2;10;0] /\ release [50;46;51] [2;3] /\
  check_version [50;46;51;46;50] (Some [50;46;49;48;46;48]) = None /\
  check_version [50;46;51;46;50] (Some [50;46;51]) = Some [50;46;51;46;50] /\
  ~ not_newer [2;10;0] [2;3;2] /\ not_newer [2;3] [2;3;2].
Proof.
  assert (D2 : numeral [50] 2) by (apply (nu_one 50); lia). assert (D3 : numeral [51] 3) by (apply (nu_one 51); lia).
  assert (D10 : numeral [49;48] 10) by (apply (nu_more [49] 1 48); [ apply (nu_one 49); lia | lia | unfold digit; lia ]).
  split; [ apply (re_more [50] 2 [51;46;50]); [ exact D2 | apply (re_more [51] 3 [50]); [ exact D3 | apply re_one; exact D2 ] ] |].
  split; [ apply (re_more [50] 2 [49;48;46;48]); [ exact D2 | apply (re_more [49;48] 10 [48]); [ exact D10 | apply re_one; constructor ] ] |].
  split; [ apply (re_more [50] 2 [51]); [ exact D2 | apply re_one; exact D3 ] |].
  split; [ reflexivity |]. split; [ reflexivity |]. split.
  - intros H. inversion H; subst; [ lia |]. match goal with X : not_newer [10;0] _ |- _ => inversion X; subst; lia end.
  - apply nn_same, nn_same, nn_end.
Qed.
