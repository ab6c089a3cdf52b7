(** The libidn compatibility layer. *)
From Verif Require Import Base Uenv UcdProofs Ucd Utf8 Lookup Api ApiProofs SpecUnicode SpecNfc SpecLookup SpecCli LookupMap LookupMisc LookupExamples Compat.

Lemma parses_down : forall d n l e, parses (d + n) l e -> parses n l e.
Proof. induction d as [|d IH]; intros n l e H; auto. apply IH. apply p_up. exact H. Qed.
Lemma parses_le : forall n m l e, (n <= m)%nat -> parses m l e -> parses n l e.
Proof. intros n m l e H P. apply (parses_down (m - n)). replace (m - n + n)%nat with m by lia. exact P. Qed.
Lemma add_or : forall l e, parses 3 l e -> parses 3 (macro_flags l) (EOr (EOr e (ENum IDN2_NFC_INPUT)) (ENum IDN2_NONTRANSITIONAL)).
Proof.
  intros l e H. unfold macro_flags. change [TOr; TNum IDN2_NFC_INPUT; TOr; TNum IDN2_NONTRANSITIONAL] with ([TOr; TNum IDN2_NFC_INPUT] ++ TOr :: [TNum IDN2_NONTRANSITIONAL]).
  rewrite app_assoc. constructor; [|apply (parses_down 3); constructor]. constructor; [exact H|apply (parses_down 3); constructor].
Qed.
(** The expressions that the expanded tokens may stand for: the defaults have
    gone to the last operand. *)
Inductive expanded : expr -> expr -> Prop :=
| x_here : forall e, expanded e (EOr (EOr e (ENum IDN2_NFC_INPUT)) (ENum IDN2_NONTRANSITIONAL))
| x_land : forall a b b', expanded b b' -> expanded (ELAnd a b) (ELAnd a b')
| x_lor : forall a b b', expanded b b' -> expanded (ELOr a b) (ELOr a b')
| x_cond : forall c a b b', expanded b b' -> expanded (ECond c a b) (ECond c a b').
Lemma expansion : forall n l e, parses n l e -> exists e', expanded e e' /\ parses (Nat.min n 3) (macro_flags l) e'.
Proof.
  intros n l e H.
  assert (HI : forall n l e, parses n l e -> (3 <= n)%nat -> exists e', expanded e e' /\ parses (Nat.min n 3) (macro_flags l) e').
  { intros n0 l0 e0 P Hn. rewrite Nat.min_r by lia. eexists. split; [apply x_here|]. apply add_or. apply (parses_le 3 n0); auto. }
  induction H as [z|l e H IH|l e H IH|l m a b H1 IH1 H2 IH2|l m a b H1 IH1 H2 IH2|l m a b H1 IH1 H2 IH2|l m a b H1 IH1 H2 IH2|l m a b H1 IH1 H2 IH2|l m k c a b H1 IH1 H2 IH2 H3 IH3|n l e H IH];
    try (apply HI; [econstructor; eauto|lia]; fail).
  - destruct IH2 as (e' & E & P). exists (ELAnd a e'). split; [now constructor|]. unfold macro_flags in *. rewrite <- app_assoc. cbn [app]. constructor; auto.
  - destruct IH2 as (e' & E & P). exists (ELOr a e'). split; [now constructor|]. unfold macro_flags in *. rewrite <- app_assoc. cbn [app]. constructor; auto.
  - destruct IH3 as (e' & E & P). exists (ECond c a e'). split; [now constructor|]. unfold macro_flags in *. rewrite <- !app_assoc. cbn [app]. rewrite <- app_assoc. cbn [app].
    constructor; auto.
  - destruct IH as (e' & E & P). exists e'. split; auto. destruct (Nat.le_gt_cases 3 n).
    + rewrite Nat.min_r in * by lia. exact P.
    + rewrite Nat.min_l in * by lia. apply p_up. exact P.
Qed.

Lemma lor9 : forall v, Z.lor (Z.lor v IDN2_NFC_INPUT) IDN2_NONTRANSITIONAL <> 0.
Proof. intros v H. apply Z.lor_eq_0_iff in H. destruct H; discriminate. Qed.
Definition may_be (v w : Z) : Prop := w = Z.lor (Z.lor v IDN2_NFC_INPUT) IDN2_NONTRANSITIONAL \/ w = v \/ ((v = 0 \/ v = 1) /\ (w = 0 \/ w = 1)).
Lemma expanded_nonzero : forall e e', expanded e e' -> value e <> 0 -> value e' <> 0.
Proof.
  intros e e' H. induction H as [e|a b b' H IH|a b b' H IH|c a b b' H IH]; cbn [value]; intros N.
  - apply lor9.
  - destruct (value a =? 0); [congruence|]. destruct (Z.eqb_spec (value b) 0); [congruence|]. destruct (Z.eqb_spec (value b') 0); [tauto|lia].
  - destruct (value a =? 0); [|lia]. destruct (Z.eqb_spec (value b) 0); [congruence|]. destruct (Z.eqb_spec (value b') 0); [tauto|lia].
  - destruct (value c =? 0); auto.
Qed.
Lemma expanded_value : forall e e', expanded e e' -> may_be (value e) (value e').
Proof.
  intros e e' H. induction H as [e|a b b' H IH|a b b' H IH|c a b b' H IH]; cbn [value].
  - left. reflexivity.
  - right. destruct (value a =? 0); [auto|]. right. destruct (value b =? 0), (value b' =? 0); auto.
  - right. destruct (value a =? 0); [|auto]. right. destruct (value b =? 0), (value b' =? 0); auto.
  - destruct (value c =? 0); [exact IH|right; left; reflexivity].
Qed.

(** The defaults change nothing unless TR46 processing is to be changed. *)
Definition ordinary (v : Z) : Prop := opt_transitional v = false /\ opt_no_tr46 v = false.
Lemma ordinary_lor1 : forall v, ordinary v -> ordinary (Z.lor v 1).
Proof. intros v (A & B). unfold ordinary, opt_transitional, opt_no_tr46 in *. rewrite !Z.lor_spec, A, B. split; reflexivity. Qed.
Section Same.
  Variable U : uenv.
  Hypothesis K : nfc_ok U.
  Lemma lookup_defaults : forall s v, c_string s -> ordinary v -> lookup_u8 U s (Z.lor (Z.lor v IDN2_NFC_INPUT) IDN2_NONTRANSITIONAL) = lookup_u8 U s v.
  Proof.
    intros s v C O. change IDN2_NFC_INPUT with 1. change IDN2_NONTRANSITIONAL with 8. pose proof (ordinary_lor1 v O) as (A & B). rewrite (default_nontransitional U s _ A B). apply lookup_nfc_flag; auto. apply O.
  Qed.
  Lemma lookup_may : forall s v w, c_string s -> ordinary v -> may_be v w -> lookup_u8 U s w = lookup_u8 U s v.
  Proof.
    intros s v w C O [->|[->|(V & W)]]; auto using lookup_defaults.
    assert (O1 : lookup_u8 U s 1 = lookup_u8 U s 0) by (apply (lookup_nfc_flag U s 0); auto).
    destruct V as [->| ->], W as [->| ->]; congruence.
  Qed.
  Lemma u8_may : forall i o v w, (forall s, i = Some s -> c_string s) -> ordinary v -> may_be v w -> idn2_lookup_u8 U i o w = idn2_lookup_u8 U i o v.
  Proof. intros [s|] o v w C O M; [|reflexivity]. unfold idn2_lookup_u8. rewrite (lookup_may s v w); auto. Qed.
  Lemma ordinary_ul : forall v w, ordinary v -> may_be v w -> may_be (Z.lor v 1) (Z.lor w 1) \/ Z.lor v 1 = Z.lor w 1.
  Proof.
    intros v w O [->|[->|(V & W)]]; auto.
    - left. left. change IDN2_NFC_INPUT with 1. change IDN2_NONTRANSITIONAL with 8. rewrite <- !Z.lor_assoc. reflexivity.
    - right. destruct V as [->| ->], W as [->| ->]; reflexivity.
  Qed.
  Lemma ul_may : forall L i o v w, locale_ok L -> ordinary v -> may_be v w -> idn2_lookup_ul U L i o w = idn2_lookup_ul U L i o v.
  Proof.
    intros L [s|] o v w LO O M; [|reflexivity]. unfold idn2_lookup_ul. destruct (from_locale L s) as [b|] eqn:X; [|reflexivity].
    change IDN2_NFC_INPUT with 1. destruct (ordinary_ul v w O M) as [M1|E]; [|rewrite E; reflexivity].
    apply u8_may; auto using ordinary_lor1. intros t e. injection e as <-. apply (LO s b X).
  Qed.
  Lemma wide_c : forall l b, u32_to_u8 (l ++ [0]) = Some b -> c_string (upto0 b).
  Proof. intros l b X. apply conv0_inv in X. destruct X as (s & H & ->). apply (utf8_prefix l). exact H. Qed.
  Lemma z4_may : forall i o v w, ordinary v -> may_be v w -> to_ascii_4z U i o w = to_ascii_4z U i o v.
  Proof.
    intros [l|] o v w O M; [|reflexivity]. unfold to_ascii_4z. destruct (u32_to_u8 (upto0 l ++ [0])) as [b|] eqn:X; [|reflexivity].
    apply u8_may; auto. intros t e. injection e as <-. apply (wide_c _ _ X).
  Qed.
  Lemma i4_may : forall j i o v w, ordinary v -> may_be v w -> to_ascii_4i U j i o w = to_ascii_4i U j i o v.
  Proof.
    intros j [l|] o v w O M; [|reflexivity]. unfold to_ascii_4i, to_ascii_4i2. destruct (u32_to_u8 (l ++ [0])) as [b|] eqn:X; [|reflexivity].
    rewrite (u8_may (Some (upto0 b)) (Some j) v w); auto. intros t e. injection e as <-. apply (wide_c _ _ X).
  Qed.

  Theorem macros_ok : forall f e, parses 0 f e -> exists e', parses 0 (macro_flags f) e' /\
    (ordinary (value e) -> forall L j, locale_ok L ->
      (forall i o, idna_to_ascii_4i U j i o (value e') = to_ascii_4i U j i o (value e)) /\
      (forall i o, idna_to_ascii_4z U i o (value e') = to_ascii_4z U i o (value e)) /\
      (forall i o, (forall s, i = Some s -> c_string s) -> idna_to_ascii_8z U i o (value e') = to_ascii_8z U i o (value e)) /\
      (forall i o, idna_to_ascii_lz U L i o (value e') = to_ascii_lz U L i o (value e))).
  Proof.
    intros f e P. destruct (expansion 0 f e P) as (e' & X & P'). exists e'. split; [exact P'|]. intros O L j LO. pose proof (expanded_value _ _ X) as M.
    split; [intros; now apply i4_may|]. split; [intros; now apply z4_may|]. split; [intros; now apply u8_may|]. intros; now apply ul_may.
  Qed.
End Same.

(** There is one way to parse a list of tokens: a parser without choices finds
    every expression of the grammar. *)
Definition op (k : nat) : token := match k with 1%nat => TLOr | 2%nat => TLAnd | 3%nat => TOr | 4%nat => TXor | 5%nat => TAnd | _ => TQuestion end.
Definition mk (k : nat) : expr -> expr -> expr := match k with 1%nat => ELOr | 2%nat => ELAnd | 3%nat => EOr | 4%nat => EXor | _ => EAnd end.
Inductive R : nat -> list token -> expr -> list token -> Prop :=
| r_num : forall z r, R 7 (TNum z :: r) (ENum z) r
| r_paren : forall t e r, R 0 t e (TClose :: r) -> R 7 (TOpen :: t) e r
| r_not : forall t e r, R 6 t e r -> R 6 (TNot :: t) (ENot e) r
| r_prim : forall t e r, R 7 t e r -> R 6 t e r
| r_bin : forall k t a r1 e r, (k <= 5)%nat -> R (S k) t a r1 -> L k a r1 e r -> R k t e r
with L : nat -> expr -> list token -> expr -> list token -> Prop :=
| l_more : forall k a t b r1 e r, (1 <= k <= 5)%nat -> R (S k) t b r1 -> L k (mk k a b) r1 e r -> L k a (op k :: t) e r
| l_cond : forall c t a r1 b r, R 0 t a (TColon :: r1) -> R 0 r1 b r -> L 0 c (TQuestion :: t) (ECond c a b) r
| l_stop : forall k a r, (k <= 5)%nat -> hd TClose r <> op k -> L k a r a r.
Scheme R_ind2 := Induction for R Sort Prop with L_ind2 := Induction for L Sort Prop.
Combined Scheme RL_ind from R_ind2, L_ind2.
Lemma R7_inv : forall t e r, R 7 t e r -> exists x u, t = x :: u /\ x <> TNot.
Proof. intros t e r H. inversion H; subst; try lia; eauto; eexists _, _; split; try reflexivity; discriminate. Qed.
Lemma RL_det : (forall n t e r, R n t e r -> forall e' r', R n t e' r' -> e' = e /\ r' = r) /\
  (forall k a t e r, L k a t e r -> forall e' r', L k a t e' r' -> e' = e /\ r' = r).
Proof.
  apply RL_ind.
  - intros z r e' r' H. inversion H; subst; try lia. auto.
  - intros t e r H IH e' r' H'. clear H. inversion H'; subst; try lia.
    match goal with X : R 0 t _ _ |- _ => destruct (IH _ _ X) as (-> & Y); injection Y as -> end. auto.
  - intros t e r H IH e' r' H'. clear H. inversion H'; subst; try lia.
    + match goal with X : R 6 t _ _ |- _ => destruct (IH _ _ X) as (-> & ->) end. auto.
    + match goal with X : R 7 _ _ _ |- _ => destruct (R7_inv _ _ _ X) as (x & u & E & N) end. injection E as <- <-. congruence.
  - intros t e r H IH e' r' H'. inversion H'; subst; try lia; auto.
    destruct (R7_inv _ _ _ H) as (x & u & E & N). injection E as <- <-. congruence.
  - intros k t a r1 e r Hk H1 IH1 H2 IH2 e' r' H'. clear H1 H2. inversion H'; subst; try lia.
    match goal with X : R (S k) t _ _ |- _ => destruct (IH1 _ _ X) as (-> & ->) end. auto.
  - intros k a t b r1 e r Hk H1 IH1 H2 IH2 e' r' H'. clear H1 H2. inversion H' as [k0 a0 t0 b0 r10 e0 r0 Hk0 X1 X2|c0 t0 a0 r10 b0 r0 X1 X2|k0 a0 r0 Hk0 X1]; subst; try lia.
    + destruct (IH1 _ _ X1) as (-> & ->). auto.
    + cbn in *. congruence.
  - intros c t a r1 b r H1 IH1 H2 IH2 e' r' H'. clear H1 H2. inversion H' as [k0 a0 t0 b0 r10 e0 r0 Hk0 X1 X2|c0 t0 a0 r10 b0 r0 X1 X2|k0 a0 r0 Hk0 X1]; subst; try lia.
    + destruct (IH1 _ _ X1) as (-> & X). injection X as ->. destruct (IH2 _ _ X2) as (-> & ->). auto.
    + cbn in *. congruence.
  - intros k a r Hk N e' r' H'. inversion H'; subst; cbn in *; try congruence; auto.
Qed.
(** [rest] does not go on at a level above [k]. *)
Definition quiet (k : nat) (rest : list token) : Prop := forall m, (k < m <= 5)%nat -> hd TClose rest <> op m.
Lemma complete : forall n l e, parses n l e -> forall rest, quiet n rest ->
  ((6 <= n)%nat -> R n (l ++ rest) e rest) /\
  ((1 <= n <= 5)%nat -> forall e' r', L n e rest e' r' -> R n (l ++ rest) e' r') /\
  (n = 0%nat -> hd TClose rest <> TQuestion -> R 0 (l ++ rest) e rest).
Proof.
  assert (Q : forall n m rest, (n <= m)%nat -> quiet n rest -> quiet m rest) by (intros n m rest H Q k Hk; apply Q; lia).
  assert (AT : forall n l e, (forall rest, quiet n rest -> ((6 <= n)%nat -> R n (l ++ rest) e rest) /\ ((1 <= n <= 5)%nat -> forall e' r', L n e rest e' r' -> R n (l ++ rest) e' r') /\ (n = 0%nat -> hd TClose rest <> TQuestion -> R 0 (l ++ rest) e rest)) ->
    forall rest, (n <= 7)%nat -> (forall m, (n <= m <= 5)%nat -> hd TClose rest <> op m) -> R n (l ++ rest) e rest).
  { intros n l e H rest Hn N. destruct (H rest) as (A & B & C). { intros m Hm. apply N. lia. }
    destruct (Nat.le_gt_cases 6 n); [auto|]. destruct (Nat.eq_dec n 0) as [->|]; [apply C; auto; apply (N 0%nat); lia|].
    apply B; [lia|]. apply l_stop; [lia|apply N; lia]. }
  assert (BIN : forall k l m a b, (1 <= k <= 5)%nat ->
    (forall rest, quiet k rest -> ((6 <= k)%nat -> R k (l ++ rest) a rest) /\ ((1 <= k <= 5)%nat -> forall e' r', L k a rest e' r' -> R k (l ++ rest) e' r') /\ (k = 0%nat -> hd TClose rest <> TQuestion -> R 0 (l ++ rest) a rest)) ->
    (forall rest, quiet (S k) rest -> ((6 <= S k)%nat -> R (S k) (m ++ rest) b rest) /\ ((1 <= S k <= 5)%nat -> forall e' r', L (S k) b rest e' r' -> R (S k) (m ++ rest) e' r') /\ (S k = 0%nat -> hd TClose rest <> TQuestion -> R 0 (m ++ rest) b rest)) ->
    forall rest, quiet k rest -> ((6 <= k)%nat -> R k ((l ++ op k :: m) ++ rest) (mk k a b) rest) /\ ((1 <= k <= 5)%nat -> forall e' r', L k (mk k a b) rest e' r' -> R k ((l ++ op k :: m) ++ rest) e' r') /\ (k = 0%nat -> hd TClose rest <> TQuestion -> R 0 ((l ++ op k :: m) ++ rest) (mk k a b) rest)).
  { intros k l m a b Hk IH1 IH2 rest QR. split; [intros; lia|]. split; [|intros; lia]. intros _ e' r' HL. rewrite <- app_assoc. cbn [app]. apply IH1; [|lia|].
    - intros j Hj. cbn. destruct k as [|[|[|[|[|[|k]]]]]]; try lia; destruct j as [|[|[|[|[|[|j]]]]]]; try lia; discriminate.
    - apply l_more with b rest; [lia| |exact HL]. apply (AT (S k) m b IH2); [lia|]. intros j Hj. apply QR. lia. }
  intros n l e H. induction H as [z|l e H IH|l e H IH|l m a b H1 IH1 H2 IH2|l m a b H1 IH1 H2 IH2|l m a b H1 IH1 H2 IH2|l m a b H1 IH1 H2 IH2|l m a b H1 IH1 H2 IH2|l m k c a b H1 IH1 H2 IH2 H3 IH3|n l e H IH].
  - intros rest _. split; [|split; intros; lia]. intros _. constructor.
  - intros rest _. split; [|split; intros; lia]. intros _. cbn [app]. apply r_paren. rewrite <- app_assoc. cbn [app].
    apply (proj2 (proj2 (IH (TClose :: rest) ltac:(intros j Hj; destruct j as [|[|[|[|[|[|j] ] ] ] ] ]; discriminate)))); [reflexivity|discriminate].
  - intros rest QR. split; [|split; intros; lia]. intros _. cbn [app]. apply r_not. exact (proj1 (IH rest QR) (le_n 6)).
  - exact (BIN 5%nat l m a b ltac:(lia) IH1 IH2).
  - exact (BIN 4%nat l m a b ltac:(lia) IH1 IH2).
  - exact (BIN 3%nat l m a b ltac:(lia) IH1 IH2).
  - exact (BIN 2%nat l m a b ltac:(lia) IH1 IH2).
  - exact (BIN 1%nat l m a b ltac:(lia) IH1 IH2).
  - intros rest QR. split; [intros; lia|]. split; [intros; lia|]. intros _ N. rewrite <- app_assoc. cbn [app]. rewrite <- app_assoc. cbn [app].
    apply r_bin with c (TQuestion :: m ++ TColon :: k ++ rest); [lia| |].
    + apply (AT 1%nat l c IH1); [lia|]. intros j Hj. destruct j as [|[|[|[|[|[|j]]]]]]; try lia; discriminate.
    + apply l_cond with (k ++ rest).
      * apply (proj2 (proj2 (IH2 (TColon :: k ++ rest) ltac:(intros j Hj; destruct j as [|[|[|[|[|[|j] ] ] ] ] ]; discriminate)))); [reflexivity|discriminate].
      * exact (proj2 (proj2 (IH3 rest QR)) eq_refl N).
  - intros rest QR. destruct (Nat.le_gt_cases 6 n).
    + assert (n <= 6)%nat. { clear - H. remember (S n) as k. revert n Heqk. induction H; intros; try lia. specialize (IHparses (S n0) ltac:(lia)). lia. }
      assert (n = 6)%nat as -> by lia. split; [|split; intros; lia]. intros _. apply r_prim. exact (proj1 (IH rest ltac:(intros j Hj; lia)) ltac:(lia)).
    + assert (X : R (S n) (l ++ rest) e rest) by (apply (AT (S n) l e IH); [lia|]; intros j Hj; apply QR; lia).
      split; [intros; lia|]. split.
      * intros Hn e' r' HL. apply r_bin with e rest; auto; lia.
      * intros -> N. apply r_bin with e rest; [lia|exact X|]. apply l_stop; [lia|exact N].
Qed.
Theorem parse_unique : forall l e e', parses 0 l e -> parses 0 l e' -> e' = e.
Proof.
  assert (C : forall l e, parses 0 l e -> R 0 l e []).
  { intros l e H. destruct (complete _ _ _ H []) as (_ & _ & X); [intros m Hm; destruct m as [|[|[|[|[|[|m]]]]]]; discriminate|].
    rewrite app_nil_r in X. apply X; [reflexivity|discriminate]. }
  intros l e e' H H'. destruct (proj1 RL_det _ _ _ _ (C _ _ H) _ _ (C _ _ H')) as (E & _). exact E.
Qed.

Section Macros.
  Variable U : uenv.
  Hypothesis K : nfc_ok U.
  Theorem macros_same : forall L j f e e', locale_ok L -> parses 0 f e -> parses 0 (macro_flags f) e' -> ordinary (value e) ->
      (forall i o, idna_to_ascii_4i U j i o (value e') = to_ascii_4i U j i o (value e)) /\
      (forall i o, idna_to_ascii_4z U i o (value e') = to_ascii_4z U i o (value e)) /\
      (forall i o, (forall s, i = Some s -> c_string s) -> idna_to_ascii_8z U i o (value e') = to_ascii_8z U i o (value e)) /\
      (forall i o, idna_to_ascii_lz U L i o (value e') = to_ascii_lz U L i o (value e)).
  Proof.
    intros L j f e e' LO P P' O. destruct (macros_ok U K f e P) as (e2 & P2 & X). rewrite (parse_unique _ _ _ P2 P'). apply X; auto.
  Qed.
  Theorem libidn_flags : forall f i o, In f [0; IDNA_ALLOW_UNASSIGNED; IDNA_USE_STD3_ASCII_RULES; Z.lor IDNA_ALLOW_UNASSIGNED IDNA_USE_STD3_ASCII_RULES] ->
    (forall s, i = Some s -> c_string s) ->
    idna_to_ascii_8z U i o (Z.lor (Z.lor f IDN2_NFC_INPUT) IDN2_NONTRANSITIONAL) = to_ascii_8z U i o (Z.land f IDN2_USE_STD3_ASCII_RULES).
  Proof.
    intros f i o H C. unfold idna_to_ascii_8z, to_ascii_8z. destruct i as [s|]; [|reflexivity]. unfold idn2_lookup_u8. f_equal.
    rewrite (lookup_defaults U K s f (C s eq_refl)) by (destruct H as [<-|[<-|[<-|[<-|[]]]]]; unfold ordinary; split; reflexivity).
    destruct H as [<-|[<-|[<-|[<-|[]]]]]; try reflexivity; [apply (inert_unassigned U s 0)|apply (inert_unassigned U s 32)].
  Qed.
End Macros.

(** a ? IDN2_TRANSITIONAL : 0 as argument. *)
Definition choice : list token := [TNum 1; TQuestion; TNum IDN2_TRANSITIONAL; TColon; TNum 0].
Lemma up : forall z n, (n <= 7)%nat -> parses n [TNum z] (ENum z).
Proof. intros z n H. apply (parses_le n 7 _ _ H). constructor. Qed.
Lemma case_choice : parses 0 choice (ECond (ENum 1) (ENum IDN2_TRANSITIONAL) (ENum 0)) /\
  parses 0 (macro_flags choice) (ECond (ENum 1) (ENum IDN2_TRANSITIONAL) (EOr (EOr (ENum 0) (ENum IDN2_NFC_INPUT)) (ENum IDN2_NONTRANSITIONAL))).
Proof.
  split.
  - apply (p_cond [TNum 1] [TNum IDN2_TRANSITIONAL] [TNum 0]); apply up; lia.
  - apply (p_cond [TNum 1] [TNum IDN2_TRANSITIONAL] (macro_flags [TNum 0])); try (apply up; lia). apply (parses_le 0 3); [lia|]. apply add_or. apply up. lia.
Qed.
Lemma parentheses_missing : exists f e e' s r, parses 0 f e /\ parses 0 (macro_flags f) e' /\ c_string s /\
  idna_to_ascii_8z ucd (Some s) (Some None) (value e') = Ok (IDN2_OK, Some (Some r)) /\
  idna_to_ascii_8z ucd (Some s) (Some None) (Z.lor (Z.lor (value e) IDN2_NFC_INPUT) IDN2_NONTRANSITIONAL) = Ok (IDN2_INVALID_FLAGS, Some None).
Proof.
  exists choice, (ECond (ENum 1) (ENum IDN2_TRANSITIONAL) (ENum 0)), (ECond (ENum 1) (ENum IDN2_TRANSITIONAL) (EOr (EOr (ENum 0) (ENum IDN2_NFC_INPUT)) (ENum IDN2_NONTRANSITIONAL))), [97], [97].
  split; [apply case_choice|]. split; [apply case_choice|]. split; [unfold c_string; in_range_list|]. split; vm_compute; reflexivity.
Qed.
Lemma invalid_length : (exists s rc, c_string s /\ idna_to_ascii_8z ucd (Some s) (Some None) 9 = Ok (rc, Some None) /\ rc = IDN2_TOO_BIG_LABEL /\ rc <> IDNA_INVALID_LENGTH) /\
  (exists s, c_string s /\ zlen s = 3 /\ idna_to_ascii_8z ucd (Some s) (Some None) 9 = Ok (IDNA_INVALID_LENGTH, Some None)).
Proof.
  split.
  - exists (repeat 97 64), IDN2_TOO_BIG_LABEL. split; [unfold c_string; apply Forall_forall; intros x H; apply repeat_spec in H; lia|]. split; [vm_compute; reflexivity|]. split; [reflexivity|discriminate].
  - exists [226; 132; 178]. split; [unfold c_string; in_range_list|]. split; [reflexivity|]. vm_compute. reflexivity.
Qed.
(** flags & IDNA_USE_STD3_ASCII_RULES || unassigned, with flags = 32, unassigned = 0. *)
Definition logic : list token := [TNum 32; TAnd; TNum IDNA_USE_STD3_ASCII_RULES; TLOr; TNum 0].
Lemma case_logic : parses 0 logic (ELOr (EAnd (ENum 32) (ENum 32)) (ENum 0)) /\ ordinary (value (ELOr (EAnd (ENum 32) (ENum 32)) (ENum 0))) /\
  parses 0 (macro_flags logic) (ELOr (EAnd (ENum 32) (ENum 32)) (EOr (EOr (ENum 0) (ENum IDN2_NFC_INPUT)) (ENum IDN2_NONTRANSITIONAL))).
Proof.
  assert (A : parses 1 [TNum 32; TAnd; TNum 32] (EAnd (ENum 32) (ENum 32))).
  { apply (parses_le 1 5); [lia|]. apply (p_and [TNum 32] [TNum 32]); apply up; lia. }
  split; [|split; [split; reflexivity|] ].
  - apply (parses_le 0 1); [lia|]. apply (p_lor [TNum 32; TAnd; TNum 32] [TNum 0]); [exact A|apply up; lia].
  - apply (parses_le 0 1); [lia|]. apply (p_lor [TNum 32; TAnd; TNum 32] (macro_flags [TNum 0])); [exact A|]. apply (parses_le 2 3); [lia|]. apply add_or. apply up. lia.
Qed.
