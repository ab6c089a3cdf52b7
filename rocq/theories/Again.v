(** Proofs about looking up a result again. *)
From Verif Require PunyDec.
From Verif Require Import Base PunyBase PunyExact PunyDet Uenv DataTypes SpecUtf8 SpecPuny SpecTables SpecBidi SpecContext SpecLabel SpecNfc SpecLookup SpecToAscii SpecRegister SpecHost Utf8 Utf8Proofs
  Lookup MapProofs LookupProofs LookupTr46 LookupIdem LookupMap LookupTop LookupCodes RegLookup ToAsciiProofs Compose RoundTrip RegRefusal FlagRel Uts46Proofs HostProofs SpecTwoModes TwoModes TwoModesTop SpecAgain.

Lemma plain_status : forall c, 0 <= c < 128 -> ~ (65 <= c <= 90) -> status_of c = Valid \/ is_std3 c.
Proof.
  intros c R N. unfold is_std3. rewrite (status_ascii c R). unfold ascii_status. destruct ((65 <=? c) && (c <=? 90)) eqn:E; [lia|].
  destruct (_ || _); auto.
Qed.

Section Again.
  Variable U : uenv.
  Hypothesis K : nfc_ok U.
  Variables f g : Z.
  Hypothesis FR : opt_no_roundtrip f = false.
  Hypothesis FT : opt_no_tr46 f = false.
  Hypothesis GB : ~ bad_flags g.

  Lemma status_weaken : forall p tr tr', (tr = true -> tr' = true -> True) -> ok_status p tr (negb (opt_std3 f)) -> (tr' = true -> Forall (fun c => status_of c <> Deviation) p) ->
    (opt_std3 g = true -> opt_std3 f = true \/ Forall (fun c => ~ is_std3 c) p) -> ok_status p tr' (negb (opt_std3 g)).
  Proof.
    intros p tr tr' _ S D Q. unfold ok_status in *. rewrite Forall_forall in S. apply Forall_forall. intros c I. destruct (S c I) as [V|[[_ V]|[V W]]].
    - now left.
    - right. left. split; [|exact V]. destruct tr'; [|reflexivity]. specialize (D eq_refl). rewrite Forall_forall in D. elim (D c I V).
    - right. right. split; [|exact W]. destruct (opt_std3 g); [|reflexivity]. destruct (Q eq_refl) as [X|X]; [rewrite X in V; discriminate V|]. rewrite Forall_forall in X. elim (X c I W).
  Qed.
  Lemma ascii_no_deviation : forall p, Forall (fun c => 0 <= c < 128) p -> Forall (fun c => status_of c <> Deviation) p.
  Proof.
    intros p F. eapply Forall_impl; [|exact F]. cbv beta. intros c R X. rewrite (status_ascii c R) in X. unfold ascii_status in X.
    destruct ((65 <=? c) && (c <=? 90)); [discriminate X|]. destruct (_ || _); discriminate X.
  Qed.
  Lemma valid_weaken : forall p, idna2008_valid U (negb (opt_std3 f)) p -> (opt_std3 g = true -> opt_std3 f = true \/ Forall (fun c => ~ is_std3 c) p) -> idna2008_valid U (negb (opt_std3 g)) p.
  Proof.
    intros p (V1 & V2 & V3 & V4 & V5) Q. split; [exact V1|]. split; [exact V2|]. split; [exact V3|]. split; [|exact V5].
    unfold ok_disallowed in *. rewrite Forall_forall in V4. apply Forall_forall. intros c I. destruct (V4 c I) as [V|[V W]]; [now left | right; split; [|exact W]].
    destruct (opt_std3 g); [|reflexivity]. destruct (Q eq_refl) as [X|X]; [rewrite X in V; discriminate V|]. rewrite Forall_forall in X. elim (X c I W).
  Qed.

  Lemma label_again : forall d, Forall (fun c => 0 <= c < 128) d -> tr46_label U f d d -> (opt_transitional f = true -> opt_transitional g = true) ->
    (opt_std3 g = true -> opt_std3 f = true \/ forall p, appears d p -> Forall (fun c => ~ is_std3 c) p) -> tr46_label U g d d.
  Proof.
    intros d A T TT Q.
    assert (Q' : forall p, appears d p -> opt_std3 g = true -> opt_std3 f = true \/ Forall (fun c => ~ is_std3 c) p).
    { intros p AP X. destruct (Q X) as [Y|Y]; auto. }
    remember d as s eqn:Es in T at 1. remember d as t eqn:Et in T at 1. destruct T as [AA NX (U1 & U2 & U3 & U4 & U5) L|e p E L D (U1 & U2 & U3 & U4 & U5) NR C I|e p E L D V NR|e NA NX V I AL R L].
    - subst s. apply t46_ascii; [exact AA | exact NX | | exact L]. split; [exact U1|]. split; [exact U2|]. split; [exact U3|]. split; [exact U4|].
      eapply status_weaken; [auto | exact U5 | intros _; now apply ascii_no_deviation |]. apply Q'. now apply ap_other.
    - subst s. assert (AP : appears d p) by (eapply ap_alabel; [exact E | exact D]).
      assert (EE : map lower e = e) by (rewrite E in Et; unfold ace in Et; injection Et as Et; exact Et).
      assert (UV : uts46_valid U false (opt_std3 g) p).
      { split; [exact U1|]. split; [exact U2|]. split; [exact U3|]. split; [exact U4|]. eapply status_weaken; [auto | exact U5 | discriminate | now apply Q']. }
      destruct (opt_no_roundtrip g) eqn:GR.
      + now apply (t46_verbatim U g d e p).
      + rewrite <- Et at 2. apply (t46_alabel U g d e p); auto. intros X. apply valid_weaken; [|now apply Q'].
        apply I. destruct (opt_transitional f) eqn:FX; [|reflexivity]. rewrite (TT eq_refl) in X. discriminate X.
    - congruence.
    - subst s. exfalso. clear - A NA. induction NA as [c l H|c l H IH]; inversion A; subst; [lia | auto].
  Qed.

  (** What is left of the characters of a result. *)
  Lemma result_chars : forall src r, c_string src -> zlen src < two64 -> lookup_u8 U src f = Ok r ->
    Forall (fun c => 0 < c < 128 /\ (status_of c = Valid \/ (opt_std3 f = false /\ is_std3 c))) r.
  Proof.
    intros src r C L H. destruct (lookup_shape U src f r K C L H) as (A & (ls & D & _) & _). pose proof (no_upper_case U src f r K C L FR FT H) as NU.
    rewrite Forall_forall in A, NU. apply Forall_forall. intros c I. specialize (A c I). specialize (NU c I). split; [exact A|]. cbv beta in *.
    destruct (plain_status c ltac:(lia) NU) as [V|V]; [now left|]. destruct (opt_std3 f) eqn:S; [|now right]. left.
    pose proof (host_names U K src f r ls (or_introl FR) C L FT S H D) as HL. destruct D as (_ & _ & ->).
    assert (E : c = 46 \/ lower_ldh c).
    { clear - I HL. unfold host_labels in HL. induction ls as [|d ls IH]; [contradiction I|]. inversion HL as [|? ? Hd HL']; subst.
      assert (X : In c d \/ c = 46 \/ In c (join ls)).
      { destruct ls as [|d2 ls]; [now left|]. rewrite LookupProofs.join_cons in I. apply in_app_or in I. destruct I as [I|[I|I]]; auto. }
      destruct X as [X|[X|X]]; [|now left|now apply IH]. destruct Hd as [->|(_ & _ & F & _)]; [contradiction X|]. right. rewrite Forall_forall in F. now apply F. }
    apply lower_digit_valid. unfold lower_ldh, lower_or_digit in *. lia.
  Qed.

  Lemma again : forall src r, c_string src -> zlen src < two64 -> opt_no_tr46 g = false -> lookup_u8 U src f = Ok r -> no_stricter f g r -> lookup_u8 U r g = Ok r.
  Proof.
    intros src r C L GT H (TT & Q).
    pose proof (lookup_idempotent U src f r K C L FR H) as HI. pose proof (result_chars src r C L H) as RC.
    destruct (lookup_shape U src f r K C L H) as (A & _ & LEN).
    assert (Cr : c_string r) by (eapply Forall_impl; [|exact A]; cbv beta; lia).
    assert (Ar : Forall (fun c => 0 <= c < 128) r) by (eapply Forall_impl; [|exact A]; cbv beta; lia).
    assert (Lr : zlen r < two64) by (unfold two64; lia).
    assert (FX : forall h, (opt_std3 h = true -> opt_std3 f = true \/ std3_free r) -> Forall (fixed (opt_transitional h) (opt_std3 h)) r).
    { intros h Qh. apply Forall_forall. intros c I. rewrite Forall_forall in RC. destruct (RC c I) as (R & V). apply (status_fixed (opt_transitional h) (opt_transitional h)); [lia|].
      destruct V as [V|(V & W)]; [now left|]. right. right. split; [|exact W]. destruct (opt_std3 h); [|reflexivity]. destruct (Qh eq_refl) as [X|(X & _)]; [congruence|].
      rewrite Forall_forall in X. elim (X c I W). }
    apply (lookup_exact U K r f r Cr Lr) in HI. destruct HI as (FB & HI). rewrite FT in HI. destruct HI as (l & n & ls & ds & H1 & H2 & H3 & H4 & H5 & H6 & H7 & H8).
    assert (l = r) as -> by (eapply utf8_ascii_eq; [exact H1|]; eapply Forall_impl; [|exact A]; cbv beta; lia).
    destruct (fixed_map _ _ _ (FX f ltac:(auto))) as (MF & _). destruct (fixed_map _ _ _ (FX g Q)) as (MG & _). rewrite MF in H4, H3. rewrite (nfc_ascii U K r Ar) in H4. injection H4 as <-.
    rewrite (dotted_fun _ _ _ H5 H7) in *.
    apply (lookup_exact U K r g r Cr Lr). split; [exact GB|]. rewrite GT. exists r, r, ds, ds. rewrite MG, (nfc_ascii U K r Ar).
    split; [exact H1|]. split; [exact H2|]. split; [exact H3|]. split; [reflexivity|]. split; [exact H7|]. split; [|split; [exact H7 | exact H8]].
    pose proof (std3_labels ds (fun c => 0 <= c < 128) r H7 Ar) as AL. 
    assert (G : forall d, In d ds -> tr46_label U f d d -> tr46_label U g d d).
    { intros d I T. rewrite Forall_forall in AL. apply label_again; [exact (AL d I) | exact T | exact TT |]. intros X. destruct (Q X) as [Y|(_ & Y)]; [now left|]. right.
      intros p P. exact (Y ds d p H7 I P). }
    clear - H6 G. apply Forall2_self. apply Forall_forall. intros d I. apply G; [exact I|].
    clear G. induction ds as [|d' ds IH]; [contradiction I|]. inversion H6; subst. destruct I as [->|I]; [assumption | now apply IH].
  Qed.
End Again.

(** Without UTS #46. *)
Lemma again_plain : forall U f g src r, nfc_ok U -> c_string src -> zlen src < two64 -> tr46_flags f -> plain_flags g -> lookup_u8 U src f = Ok r ->
  (opt_std3 f = true \/ std3_free r) -> lookup_u8 U r g = Ok r.
Proof.
  intros U f g src r K C L TF PG H Q. pose proof TF as (FB & FT & FX & FR).
  pose proof (lookup_idempotent U src f r K C L FR H) as HI. destruct (lookup_shape U src f r K C L H) as (A & _ & LEN).
  assert (Cr : c_string r) by (eapply Forall_impl; [|exact A]; cbv beta; lia). assert (Lr : zlen r < two64) by (unfold two64; lia).
  assert (Ar : Forall (fun c => 0 <= c < 128) r) by (eapply Forall_impl; [|exact A]; cbv beta; lia).
  destruct (to_raw U K g f PG TF r r Cr Lr HI) as (n & b & ls & (l & P1 & P2 & P3 & P4) & Hb & Cb & D & HF & W).
  assert (l = r) as -> by (eapply utf8_ascii_eq; [exact P1|]; eapply Forall_impl; [|exact A]; cbv beta; lia).
  assert (FXr : Forall (fixed false (opt_std3 f)) r).
  { eapply Forall_impl; [|exact (result_chars U K f FR FT src r C L H)]. cbv beta. intros c (R & V). apply (status_fixed false false); [lia|].
    destruct V as [V|(V & X)]; [now left|]. right. right. now rewrite V. }
  destruct (fixed_map _ _ _ FXr) as (MF & _). rewrite MF, (nfc_ascii U K r Ar) in P4. injection P4 as <-.
  rewrite (utf8_fun _ _ _ Hb P1) in W. apply W. destruct Q as [Q|(_ & Q)]; [now left|]. right. apply Forall_forall. intros s I p AP _. exact (Q ls s p D I AP).
Qed.
(** Without the check of A-labels either. *)
Lemma again_unchecked : forall U f g src r, nfc_ok U -> c_string src -> zlen src < two64 -> opt_no_roundtrip g = true -> opt_no_tr46 g = true -> ~ bad_flags g ->
  lookup_u8 U src f = Ok r -> lookup_u8 U r g = Ok r.
Proof.
  intros U f g src r K C L GR GT GB H. destruct (lookup_shape U src f r K C L H) as (A & (ls & D & LL) & LEN).
  assert (Cr : c_string r) by (eapply Forall_impl; [|exact A]; cbv beta; lia). assert (Lr : zlen r < two64) by (unfold two64; lia).
  apply (lookup_exact U K r g r Cr Lr). split; [exact GB|]. rewrite GT. exists ls, ls. split; [exact D|]. split; [|split; [exact D|]].
  - apply Forall2_self. pose proof (std3_labels ls (fun c => 0 < c < 128) r D A) as AL. rewrite Forall_forall in *. intros d I. apply raw_ascii; [|congruence | now apply LL].
    apply Forall_forall. intros c Ic. specialize (AL d I). rewrite Forall_forall in AL. apply AL in Ic. lia.
  - destruct LEN as [LEN|(LEN & t & ->)]; [now left | right]. split; [exact LEN|]. apply (last_empty _ _ D). right. now exists t.
Qed.

(** A result is never turned into another name. *)
Lemma sbc_low : forall a b, same_but_case a b -> map lower a = a -> map lower b = b -> a = b.
Proof. intros a b H A B. apply sbc_lower_map in H. congruence. Qed.
Lemma raw_same : forall U g d d', nfc_ok U -> Forall (fun c => 0 < c < 128) d -> map lower d = d -> raw_label U g d d' -> d' = d.
Proof.
  intros U g d d' K A M R. destruct R as [AA X LE|e p0 p e' Eb X D Sc Nf V RE LE SB|p0 p e NA Hp Nf V NP RE LE].
  - reflexivity.
  - assert (Sp : Forall scalar p).
    { unfold normal_form in Nf. destruct (opt_nfc g); [|now subst]. destruct Nf as [(_ & ->)|(_ & N)]; [exact Sc|]. exact (nfc_scalar U K _ _ Sc N). }
    destruct (valid_lower U p Sp V) as (_ & _ & ML). rewrite Eb. f_equal. unfold ace. do 4 f_equal. symmetry. apply sbc_low; [exact SB | | exact (encoded_lower p e' Sp ML RE)].
    rewrite Eb in M. unfold ace in M. cbn [map] in M. injection M as M. exact M.
  - exfalso. clear - A NA. induction NA as [c l H|c l H IH]; inversion A; subst; [lia | auto].
Qed.
Lemma never_other : forall U V f g src r r', nfc_ok U -> nfc_ok V -> c_string src -> zlen src < two64 -> opt_no_roundtrip f = false -> opt_no_tr46 f = false ->
  lookup_u8 U src f = Ok r -> (opt_no_tr46 g = false -> opt_std3 g = true -> opt_no_roundtrip g = false /\ Forall (fun c => ~ is_std3 c) r) -> lookup_u8 V r g = Ok r' -> r' = r.
Proof.
  intros U V f g src r r' K KV C L FR FT H Q G. destruct (lookup_shape U src f r K C L H) as (A & _ & LEN).
  pose proof (no_upper_case U src f r K C L FR FT H) as NU.
  assert (Lr : zlen r < two64) by (unfold two64; lia). assert (Cr : c_string r) by (eapply Forall_impl; [|exact A]; cbv beta; lia).
  assert (M : map lower r = r).
  { apply map_id_in. eapply Forall_impl; [|exact NU]. cbv beta. intros c N. unfold lower. destruct ((65 <=? c) && (c <=? 90)) eqn:E; lia. }
  destruct (opt_no_tr46 g) eqn:GT.
  - apply (lookup_exact V KV r g r' Cr Lr) in G. destruct G as (_ & G). rewrite GT in G. destruct G as (ls & ds & D & F & D' & _).
    pose proof (std3_labels ls (fun c => 0 < c < 128) r D A) as AL. pose proof (std3_labels ls (fun c => ~ (65 <= c <= 90)) r D NU) as NL.
    assert (ds = ls) as ->; [|destruct D as (_ & _ & ->); destruct D' as (_ & _ & ->); reflexivity].
    clear - F AL NL KV. induction F as [|d d' ls ds R F IH]; [reflexivity|]. inversion AL; inversion NL; subst. f_equal; [|now apply IH].
    apply (raw_same V g); auto. apply map_id_in. eapply Forall_impl; [|eassumption]. cbv beta. intros c N. unfold lower. destruct ((65 <=? c) && (c <=? 90)) eqn:E; lia.
  - destruct (opt_std3 g) eqn:GS.
    + destruct (Q eq_refl eq_refl) as (GR & Q'). rewrite (ascii_result V KV r g r' A Lr GT GS GR G). unfold kept. rewrite M. apply PunyDec.filter_all. apply Forall_forall. intros c I.
      rewrite Forall_forall in Q', A, NU. apply valid_ascii; [specialize (A c I); cbv beta in A; lia|]. left.
      destruct (plain_status c ltac:(specialize (A c I); cbv beta in A; lia) (NU c I)) as [X|X]; [exact X | elim (Q' c I X)].
    + rewrite (ascii_lowered V r g r' KV A Lr GT GS G). exact M.
Qed.
