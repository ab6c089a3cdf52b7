(** With room for so much the allocator makes no difference. *)
From Verif Require Import Base Uenv Utf8 Bidi Context Idna Puny Lookup Api Register PunyBase SpecUtf8 Utf8Proofs SpecNfc SpecLookup LookupProofs LookupTr46 NonZero NoFail
  ApiProofs CostPuny CostLabel Heap SpecHeap SpecRoom HeapProofs HeapRun.

Definition never (E : allocator) : allocator := Allocator (fun _ _ => false) (spoils E).

(** Two computations that agree, and what they lead to. *)
Definition agree {A} (m m' : M A) (h : heap) (Q : A -> heap -> Prop) : Prop :=
  m h = m' h /\ match m h with Ok (a, h') => Q a h' | _ => True end.
Lemma ag_bind : forall A B (m m' : M A) (k k' : A -> M B) h Q,
  agree m m' h (fun a h' => agree (k a) (k' a) h' Q) -> agree (hbind m k) (hbind m' k') h Q.
Proof.
  intros A B m m' k k' h Q (H & G). unfold agree, hbind in *. rewrite <- H. destruct (m h) as [[a h']| | |]; cbn [bind]; auto.
Qed.
Lemma ag_ret : forall A (a : A) h (Q : A -> heap -> Prop), Q a h -> agree (ret a) (ret a) h Q.
Proof. intros. split; auto. Qed.
Lemma ag_try : forall A (m : out A) h (Q : A + Z -> heap -> Prop),
  (forall a, m = Ok a -> Q (inl a) h) -> (forall rc, m = Fail rc -> Q (inr rc) h) -> agree (try m) (try m) h Q.
Proof. intros A [a|rc| |] h Q G H; split; cbn; auto. Qed.
Lemma ag_must : forall A (m : out A) h (Q : A -> heap -> Prop), (forall a, m = Ok a -> Q a h) -> agree (must m) (must m) h Q.
Proof. intros A [a|rc| |] h Q G; split; cbn; auto. Qed.
Lemma ag_undef : forall A h (Q : A -> heap -> Prop), agree undef undef h Q.
Proof. intros. split; cbn; auto. Qed.
Lemma ag_load : forall a h (Q : list Z -> heap -> Prop), (forall l, alive a (live h) l -> Q l h) -> agree (load a) (load a) h Q.
Proof. intros [s|n] h Q H; split; cbn; auto; [now apply H|]. destruct (find_block n (live h)) eqn:X; [|exact I]. now apply H. Qed.
Lemma ag_touch : forall a h (Q : unit -> heap -> Prop), Q tt h -> agree (touch a) (touch a) h Q.
Proof. intros a h Q H. unfold touch. apply ag_bind, ag_load. intros. now apply ag_ret. Qed.
Lemma ag_cstr : forall a h (Q : list Z -> heap -> Prop), (forall s, reads a (live h) s -> Q s h) -> agree (cstr a) (cstr a) h Q.
Proof.
  intros a h Q H. unfold cstr. apply ag_bind, ag_load. intros l A. apply ag_ret. apply H. destruct a as [s|n]; [exact A|]. now exists l.
Qed.
Lemma ag_local : forall n h (Q : addr -> heap -> Prop), Q (Block n) h -> agree (local (Some n)) (local (Some n)) h Q.
Proof. intros. split; cbn; auto. Qed.
Lemma ag_fill_top : forall n x y L f c e (Q : unit -> heap -> Prop), Q tt (Heap ((n, x) :: L) f c e) ->
  agree (fill n x) (fill n x) (Heap ((n, y) :: L) f c e) Q.
Proof.
  intros n x y L f c e Q H. split; [reflexivity|]. unfold fill. cbn [live find_block fresh calls errno]. rewrite Nat.eqb_refl.
  cbn [fill_block]. rewrite Nat.eqb_refl. exact H.
Qed.
Lemma ag_or : forall x h (Q : Z -> heap -> Prop), (forall rc, rc = IDN2_MALLOC \/ rc = x -> Q rc h) -> agree (no_memory_or x) (no_memory_or x) h Q.
Proof. intros x h Q H. split; [reflexivity|]. unfold no_memory_or, hbind, nomem, ret. cbn. apply H. destruct (errno h =? ENOMEM); auto. Qed.
Lemma top_alive : forall n x L l, alive (Block n) ((n, x) :: L) l -> l = x.
Proof. intros n x L l. cbn [alive find_block]. rewrite Nat.eqb_refl. intros H. injection H as H. now symmetry. Qed.
Lemma cells_nonneg : forall L, 0 <= cells L.
Proof. induction L as [|[n x] L IH]; cbn [cells]; [lia|]. pose proof (zlen_nonneg _ x). lia. Qed.
Lemma blank_len : forall n, 0 <= n -> zlen (blank n) = n.
Proof. intros n H. unfold blank, zlen. rewrite repeat_length. lia. Qed.
Lemma upto0_le : forall l, zlen (upto0 l) <= zlen l.
Proof. exact upto0_zlen. Qed.
Lemma skipn_le : forall n (l : list Z), zlen (skipn n l) <= zlen l.
Proof. intros n l. unfold zlen. rewrite skipn_length. lia. Qed.

Ltac sizes := cbn [cells request option_map] in *; repeat match goal with
  | |- context[zlen ?l] => lazymatch goal with H : 0 <= zlen l |- _ => fail | _ => pose proof (zlen_nonneg _ l) end
  | H : context[zlen ?l] |- _ => lazymatch goal with H : 0 <= zlen l |- _ => fail | _ => pose proof (zlen_nonneg _ l) end
  end.

Section Room.
  Variable E : allocator.
  Variable U : uenv.
  Hypothesis K : nfc_ok U.
  Variable B : Z.
  Hypothesis R : roomy E B.
  Let E' := never E.

  Lemma ag_acquire : forall o L f c e (Q : option nat -> heap -> Prop), cells L + request o <= B ->
    (o = None -> Q None (Heap L f (S c) EILSEQ)) -> (forall l, o = Some l -> Q (Some f) (Heap ((f, l) :: L) (S f) (S c) e)) ->
    agree (acquire E o) (acquire E' o) (Heap L f c e) Q.
  Proof.
    intros o L f c e Q H H1 H2. unfold agree, acquire, E'. cbn [calls live fresh errno never fails]. rewrite (R c _ H).
    split; [reflexivity|]. destruct o; auto.
  Qed.
  Lemma ag_free_null : forall L f c e (Q : unit -> heap -> Prop),
    (forall e', Q tt (Heap L f (S c) e')) -> agree (free E None) (free E' None) (Heap L f c e) Q.
  Proof. intros. split; [reflexivity|]. cbn. apply H. Qed.
  Lemma ag_free_top : forall n l L f c e (Q : unit -> heap -> Prop),
    (forall e', Q tt (Heap L f (S c) e')) -> agree (free E (Some n)) (free E' (Some n)) (Heap ((n, l) :: L) f c e) Q.
  Proof. intros. split; [reflexivity|]. cbn. rewrite Nat.eqb_refl. apply H. Qed.
  Lemma ag_free_second : forall n l m k L f c e (Q : unit -> heap -> Prop), n <> m ->
    (forall e', Q tt (Heap ((m, k) :: L) f (S c) e')) -> agree (free E (Some n)) (free E' (Some n)) (Heap ((m, k) :: (n, l) :: L) f c e) Q.
  Proof.
    intros n l m k L f c e Q N H. split; [reflexivity|]. cbn.
    assert (N' : Nat.eqb m n = false) by (apply Nat.eqb_neq; congruence). rewrite N', Nat.eqb_refl. apply H.
  Qed.
  Lemma ag_free_on_top : forall sa L L0 f c e (Q : unit -> heap -> Prop), on_top sa L L0 ->
    (forall e', Q tt (Heap L0 f (S c) e')) -> agree (free E sa) (free E' sa) (Heap L f c e) Q.
  Proof. intros [n|] L L0 f c e Q T H; cbn in T; [destruct T as (l & ->); now apply ag_free_top|subst; now apply ag_free_null]. Qed.
  Ltac frees := repeat (apply ag_bind; first [apply ag_free_top; intros ? | apply ag_free_null; intros ?]).

  Lemma nfc_req : forall l, request (ue_nfc U l) <= 4 * zlen l.
  Proof. intros l. destruct (ue_nfc U l) as [p|] eqn:X; cbn [request]; [now apply (nfc_length _ K)|]. pose proof (zlen_nonneg _ l). lia. Qed.
  Lemma u8_req : forall s, request (u8_to_u32 s) <= zlen s.
  Proof. intros s. destruct (u8_to_u32 s) as [p|] eqn:X; cbn [request]; [now apply (u8_to_u32_len (length s) s)|]. apply zlen_nonneg. Qed.
  Lemma u32_req : forall l, request (u32_to_u8 l) <= 4 * zlen l.
  Proof. intros l. destruct (u32_to_u8 l) as [p|] eqn:X; cbn [request]; [now apply u32_to_u8_len|]. pose proof (zlen_nonneg _ l). lia. Qed.
  Lemma req_some : forall o l, o = Some l -> request o = zlen l. Proof. intros. now subst. Qed.

  Lemma ag_label_test : forall what a s L f c e (Q : Z -> heap -> Prop), cells L + 4 * zlen s <= B ->
    (forall rc f' c' e', (f <= f')%nat -> Q rc (Heap L f' c' e')) ->
    agree (m_label_test E U what a s) (m_label_test E' U what a s) (Heap L f c e) Q.
  Proof.
    intros what a s L f c e Q H G. unfold m_label_test. pose proof (nfc_req s) as NR.
    assert (Rest : forall f' c' e', (f <= f')%nat ->
      agree (let! _ := touch a in let! r := try (later_tests U what s) in ret (rc_only r))
            (let! _ := touch a in let! r := try (later_tests U what s) in ret (rc_only r)) (Heap L f' c' e') Q).
    { intros f' c' e' F. apply ag_bind, ag_touch. apply ag_bind, ag_try; intros; apply ag_ret; auto. }
    destruct (has what TEST_NFC); [|apply Rest; lia].
    apply ag_bind, ag_touch. apply ag_bind, ag_acquire.
    - lia.
    - intros _. apply ag_or. intros; apply G; lia.
    - intros l X. apply ag_bind, ag_touch. apply ag_bind, ag_load. intros l' A. cbv zeta. frees.
      destruct (list_eqb s l'); [apply Rest; lia|]. apply ag_ret, G. lia.
  Qed.

  Lemma ag_u8_to_u32_nfc : forall a s nfc old L f c e (Q : Z * option nat -> heap -> Prop), cells L + 5 * zlen s <= B ->
    (forall l n f' c' e', (f <= n)%nat -> (n < f')%nat -> zlen l <= 4 * zlen s -> Q (IDN2_OK, Some n) (Heap ((n, l) :: L) f' c' e')) ->
    (forall rc f' c' e', (f <= f')%nat -> rc <> IDN2_OK -> Q (rc, old) (Heap L f' c' e')) ->
    agree (m_u8_to_u32_nfc E U a s nfc old) (m_u8_to_u32_nfc E' U a s nfc old) (Heap L f c e) Q.
  Proof.
    intros a s nfc old L f c e Q H K1 K2. unfold m_u8_to_u32_nfc. pose proof (u8_req s) as UR. pose proof (zlen_nonneg _ s).
    assert (Out : forall x f' c' e', (f <= f')%nat -> x <> IDN2_OK ->
      agree (let! rc := no_memory_or x in ret (rc, old)) (let! rc := no_memory_or x in ret (rc, old)) (Heap L f' c' e') Q).
    { intros x f' c' e' F X. apply ag_bind, ag_or. intros rc Y. apply ag_ret, K2; [exact F|]. destruct Y as [->| ->]; [discriminate|exact X]. }
    apply ag_bind, ag_touch. apply ag_bind, ag_acquire; [lia|intros _; apply Out; [lia|discriminate]|].
    intros l X. apply req_some in X. destruct nfc; [|apply ag_ret, K1; lia].
    apply ag_bind, ag_load. intros l' A. apply top_alive in A. subst l'.
    apply ag_bind, ag_must. intros k _. destruct (k =? 0); [|apply ag_ret, K1; lia].
    pose proof (nfc_req l) as NR. apply ag_bind, ag_touch. apply ag_bind, ag_acquire.
    - sizes. lia.
    - intros _. frees. apply Out; [lia|discriminate].
    - intros l' Y. apply req_some in Y. apply ag_bind, ag_free_second; [lia|]. intros e'. apply ag_ret, K1; lia.
  Qed.

  Lemma ag_label_tail : forall a s org sa dstlen flags L L0 f c e (Q : Z * list Z -> heap -> Prop), on_top sa L L0 -> cells L + 20 * zlen s <= B ->
    (forall r f' c' e', (f <= f')%nat -> Q r (Heap L0 f' c' e')) ->
    agree (m_label_tail E U a s org sa dstlen flags) (m_label_tail E' U a s org sa dstlen flags) (Heap L f c e) Q.
  Proof.
    intros a s org sa dstlen flags L L0 f c e Q T H G. pose proof (zlen_nonneg _ s). unfold m_label_tail.
    assert (Out : forall (r : list Z + Z) p L' f' c' e', on_top p L' L -> (f <= f')%nat ->
      agree (let! _ := free E p in let! _ := free E sa in ret (match r with inl d => (IDN2_OK, d) | inr rc => (rc, []) end))
            (let! _ := free E' p in let! _ := free E' sa in ret (match r with inl d => (IDN2_OK, d) | inr rc => (rc, []) end)) (Heap L' f' c' e') Q).
    { intros r p L' f' c' e' T' F. apply ag_bind, (ag_free_on_top p L' L); [exact T'|]. intros e1.
      apply ag_bind, (ag_free_on_top sa L L0); [exact T|]. intros e2. apply ag_ret, G. exact F. }
    apply ag_bind, ag_u8_to_u32_nfc; [lia| |].
    - intros l n f' c' e' F1 F2 Z1. change (negb (IDN2_OK =? IDN2_OK)) with false. cbv iota.
      apply ag_bind. apply ag_bind, ag_local. apply ag_bind, ag_load. intros l' A. apply top_alive in A. subst l'.
      assert (Fin : forall rc f'' c'' e'', (f' <= f'')%nat ->
        agree (if negb (rc =? IDN2_OK) then ret (inr rc) else let! _ := touch (Block n) in
               let! _ := match org with Some (a0, _) => touch a0 | None => ret tt end in
               try (label_encode l (match org with Some (_, s0) => Some s0 | None => None end) dstlen flags))
              (if negb (rc =? IDN2_OK) then ret (inr rc) else let! _ := touch (Block n) in
               let! _ := match org with Some (a0, _) => touch a0 | None => ret tt end in
               try (label_encode l (match org with Some (_, s0) => Some s0 | None => None end) dstlen flags)) (Heap ((n, l) :: L) f'' c'' e'')
          (fun r h' => agree (let! _ := free E (Some n) in let! _ := free E sa in ret (match r with inl d => (IDN2_OK, d) | inr rc => (rc, []) end))
            (let! _ := free E' (Some n) in let! _ := free E' sa in ret (match r with inl d => (IDN2_OK, d) | inr rc => (rc, []) end)) h' Q)).
      { intros rc f'' c'' e'' F3. assert (TT : on_top (Some n) ((n, l) :: L) L) by now exists l.
        destruct (negb (rc =? IDN2_OK)); [apply ag_ret, (Out (inr rc)); [exact TT|lia]|].
        apply ag_bind, ag_touch. apply ag_bind.
        assert (Go : agree (try (label_encode l (match org with Some (_, s0) => Some s0 | None => None end) dstlen flags))
          (try (label_encode l (match org with Some (_, s0) => Some s0 | None => None end) dstlen flags)) (Heap ((n, l) :: L) f'' c'' e'')
          (fun r h' => agree (let! _ := free E (Some n) in let! _ := free E sa in ret (match r with inl d => (IDN2_OK, d) | inr rc => (rc, []) end))
            (let! _ := free E' (Some n) in let! _ := free E' sa in ret (match r with inl d => (IDN2_OK, d) | inr rc => (rc, []) end)) h' Q)).
        { apply ag_try; [intros d _; apply (Out (inl d))|intros rc' _; apply (Out (inr rc'))]; auto; lia. }
        destruct org as [[a0 s0]|]; [apply ag_touch|apply ag_ret]; exact Go. }
      apply ag_bind. destruct (negb (has flags IDN2_TRANSITIONAL)).
      + apply ag_label_test; [sizes; lia|]. intros rc f'' c'' e'' F3. now apply Fin.
      + apply ag_ret. apply Fin. lia.
    - intros rc f' c' e' F N. rewrite (proj2 (Z.eqb_neq rc IDN2_OK) N). cbn [negb]. apply ag_bind, ag_ret.
      apply (Out (inr rc)); [reflexivity|exact F].
  Qed.

  Lemma ag_label : forall a s dstlen flags L f c e (Q : Z * list Z -> heap -> Prop), zlen s < two64 -> cells L + Z.max (20 * zlen s) 5292 <= B ->
    (forall r f' c' e', (f <= f')%nat -> Q r (Heap L f' c' e')) ->
    agree (m_label E U a s dstlen flags) (m_label E' U a s dstlen flags) (Heap L f c e) Q.
  Proof.
    intros a s dstlen flags L f c e Q W H G. unfold m_label. apply ag_bind, ag_touch. destruct (ascii_p s).
    - destruct (negb (has flags IDN2_NO_ALABEL_ROUNDTRIP) && has_ace_prefix s).
      + apply ag_bind, ag_try; [|intros; apply ag_ret, G; lia]. intros l D. pose proof (skipn_le 4 s).
        destruct (decoded _ _ D) as (D1 & _); [lia|]. pose proof (u32_req l). apply ag_bind, ag_acquire; [lia| |].
        * intros _. apply ag_bind, ag_or. intros. apply ag_ret, G. lia.
        * intros x X. apply req_some in X. apply ag_bind, ag_load. intros x' A. apply top_alive in A. subst x'.
          apply (ag_label_tail _ _ _ _ _ _ _ L); [now exists x|sizes; lia|]. intros. apply G. lia.
      + destruct (LABEL_MAX <? zlen s); [apply ag_ret, G; lia|]. destruct (dstlen <? zlen s); apply ag_ret, G; lia.
    - apply (ag_label_tail _ _ _ _ _ _ _ L); [reflexivity|lia|exact G].
  Qed.

  Lemma ag_tr46_checks : forall d flags m ls L x f c e err (Q : Z + Z -> heap -> Prop),
    Forall (fun s => zlen s <= m) ls -> m < 1000000 -> (d < f)%nat -> cells ((d, x) :: L) + Z.max (4 * m) 252 <= B ->
    (forall r f' c' e', (f <= f')%nat -> Q (inl r) (Heap ((d, x) :: L) f' c' e')) ->
    (forall rc f' c' e', (f <= f')%nat -> rc <> IDN2_OK -> Q (inr rc) (Heap L f' c' e')) ->
    agree (m_tr46_checks E U d flags ls err) (m_tr46_checks E' U d flags ls err) (Heap ((d, x) :: L) f c e) Q.
  Proof.
    intros d flags m ls. induction ls as [|s rest IH]; intros L x f c e err Q FA MM DF H K1 K2.
    - cbn [m_tr46_checks]. apply ag_bind, ag_touch. apply ag_ret, K1. lia.
    - cbn [m_tr46_checks]. cbv zeta. apply ag_bind, ag_touch. apply Forall_cons_iff in FA. destruct FA as (Fs & FA).
      assert (Visit : (s = [] /\ rest = []) \/ ((forall T (u v : T), match s, rest with [], [] => u | _, _ => v end = v))).
      { destruct s; [|now right]. destruct rest; [now left|now right]. }
      destruct Visit as [(-> & ->)|V]; [apply ag_ret, K1; lia|]. rewrite !V. clear V.
      assert (Next : forall what a t f' c' e', zlen t <= Z.max m 63 -> (f <= f')%nat ->
        agree (let! rc := m_label_test E U what a t in m_tr46_checks E U d flags rest (if rc =? IDN2_OK then err else rc))
              (let! rc := m_label_test E' U what a t in m_tr46_checks E' U d flags rest (if rc =? IDN2_OK then err else rc)) (Heap ((d, x) :: L) f' c' e') Q).
      { intros what a t f' c' e' Zt F. apply ag_bind, ag_label_test; [lia|]. intros rc f'' c'' e'' F'. apply IH; auto; [lia| |].
        - intros. apply K1. lia.
        - intros. apply K2; [lia|assumption]. }
      destruct (has_ace_prefix s).
      + pose proof (u32_req (skipn 4 s)). pose proof (skipn_le 4 s). apply ag_bind, ag_acquire; [lia| |].
        * intros _. frees. apply ag_bind, ag_or. intros rc X. apply ag_ret, K2; [lia|]. destruct X as [->| ->]; discriminate.
        * intros l X. apply req_some in X. apply ag_bind, ag_load. intros l' A. apply top_alive in A. subst l'.
          apply ag_bind, ag_try.
          -- intros name D. destruct (decoded _ _ D) as (D1 & _); [unfold two64; lia|]. frees. apply Next; lia.
          -- intros rc D. frees. apply ag_ret, K2; [lia|]. now apply (nz_decode _ _ _ _ D).
      + apply Next; lia.
  Qed.

  Lemma until0_le : forall l s, until0 l = Some s -> zlen s <= zlen l.
  Proof. intros l s H. apply upto0_until0 in H. subst s. apply upto0_zlen. Qed.
  Lemma blank_le : forall n m, n <= m -> 0 <= m -> zlen (blank n) <= m.
  Proof. intros n m H G. unfold blank, zlen. rewrite repeat_length. lia. Qed.

  Lemma ag_tr46 : forall a s0 flags old L f c e (Q : Z * option nat -> heap -> Prop), (forall s, reads a L s -> zlen s <= s0) ->
    cells L + Z.max (s0 + 256) 5100 <= B ->
    (forall n x f' c' e', (f <= n)%nat -> (n < f')%nat -> zlen x <= 4080 -> Q (IDN2_OK, Some n) (Heap ((n, x) :: L) f' c' e')) ->
    (forall rc f' c' e', (f <= f')%nat -> rc <> IDN2_OK -> Q (rc, old) (Heap L f' c' e')) ->
    agree (m_tr46 E U a flags old) (m_tr46 E' U a flags old) (Heap L f c e) Q.
  Proof.
    intros a s0 flags old L f c e Q A0 H K1 K2. unfold m_tr46. pose proof (cells_nonneg L) as CL.
    assert (Out : forall f' c' e', (f <= f')%nat ->
      agree (let! rc := no_memory_or IDN2_ENCODING_ERROR in ret (rc, old)) (let! rc := no_memory_or IDN2_ENCODING_ERROR in ret (rc, old)) (Heap L f' c' e') Q).
    { intros f' c' e' F. apply ag_bind, ag_or. intros rc Y. apply ag_ret, K2; [exact F|]. destruct Y as [->| ->]; discriminate. }
    apply ag_bind, ag_cstr. intros s As. cbn [live] in As. apply A0 in As.
    pose proof (u8_req (s ++ [0])) as UR. rewrite zlen_app in UR. change (zlen [0]) with 1 in UR.
    apply ag_bind, ag_acquire; [lia|intros _; apply Out; lia|]. intros l X. apply req_some in X.
    apply ag_bind, ag_load. intros l' A. apply top_alive in A. subst l'.
    apply ag_bind, ag_try.
    2:{ intros rc T. frees. apply ag_ret, K2; [lia|]. now apply (nz_tr46_len _ _ _ _ T). }
    intros len2 T. destruct (DOMAIN_MAX <=? len2) eqn:D; [frees; apply ag_ret, K2; [lia|discriminate]|].
    apply Z.leb_gt in D. unfold DOMAIN_MAX in D. pose proof (blank_le (len2 + 1) 255 ltac:(lia) ltac:(lia)).
    apply ag_bind, ag_acquire; [sizes; lia|discriminate|]. intros l0 El. injection El as <-.
    apply ag_bind, ag_load. intros l1 _. apply ag_bind, ag_must. intros x Mp.
    destruct (len2 + 1 <? zlen x + 1) eqn:Lx; [apply ag_undef|]. apply Z.ltb_ge in Lx.
    apply ag_bind, ag_fill_top. apply ag_bind, ag_free_second; [lia|]. intros e1.
    apply ag_bind, ag_load. intros x' A. apply top_alive in A. subst x'.
    pose proof (nfc_req (x ++ [0])) as NR. assert (Zx : zlen (x ++ [0]) <= 255) by (rewrite zlen_app; change (zlen [0]) with 1; lia).
    apply ag_bind, ag_acquire; [sizes; lia|intros _; frees; apply Out; lia|]. intros n Y. apply req_some in Y.
    apply ag_bind, ag_free_second; [lia|]. intros e2. apply ag_bind, ag_load. intros n' A. apply top_alive in A. subst n'.
    destruct (until0 n) as [name|] eqn:Un; [|apply ag_undef]. apply until0_le in Un.
    apply ag_bind, (ag_tr46_checks _ _ 1020).
    - apply Forall_forall. intros z Iz. apply split_zlen in Iz. lia.
    - lia.
    - lia.
    - sizes. lia.
    - intros err f' c' e' F. destruct (err =? IDN2_OK) eqn:EE.
      + apply Z.eqb_eq in EE. subst err. apply ag_bind, ag_load. intros n' A. apply top_alive in A. subst n'. pose proof (u32_req n) as UQ.
        apply ag_bind, ag_acquire; [sizes; lia|intros _; frees; apply Out; lia|]. intros o O. apply req_some in O.
        apply ag_bind, ag_free_second; [lia|]. intros e3. apply ag_ret, K1; lia.
      + apply Z.eqb_neq in EE. frees. apply ag_ret, K2; [lia|exact EE].
    - intros rc f' c' e' F N. apply ag_ret, K2; [lia|exact N].
  Qed.

  Lemma ag_lookup_labels : forall a sa flags m ls acc L L0 f c e (Q : Z * list Z -> heap -> Prop), on_top sa L L0 -> zlen acc <= 255 ->
    Forall (fun s => zlen s <= m) ls -> m < two64 -> cells L + Z.max (20 * m) 5292 <= B ->
    (forall rc r f' c' e', (f <= f')%nat -> zlen r <= 255 -> Q (rc, r) (Heap L0 f' c' e')) ->
    agree (m_lookup_labels E U a sa flags ls acc) (m_lookup_labels E' U a sa flags ls acc) (Heap L f c e) Q.
  Proof.
    intros a sa flags m ls. induction ls as [|l rest IH]; intros acc L L0 f c e Q T Za FA MM H G.
    - cbn [m_lookup_labels]. apply ag_bind, (ag_free_on_top sa L L0); [exact T|]. intros. apply ag_ret, G; auto.
    - cbn [m_lookup_labels]. cbv zeta. apply Forall_cons_iff in FA. destruct FA as (Fl & FA). apply ag_bind, ag_touch.
      assert (Nil : zlen (@nil Z) <= 255) by (change (zlen (@nil Z)) with 0; lia).
      apply ag_bind, ag_label; [lia|lia|]. intros [rc tmp] f' c' e' F.
      destruct (negb (rc =? IDN2_OK)); [apply ag_bind, (ag_free_on_top sa L L0); [exact T|]; intros; apply ag_ret, G; auto|].
      apply ag_bind, ag_touch. destruct (_ <? zlen acc + zlen tmp); [apply ag_bind, (ag_free_on_top sa L L0); [exact T|]; intros; apply ag_ret, G; auto|].
      destruct (DOMAIN_MAX + 1 <? _); [apply ag_undef|]. destruct rest as [|l2 rest].
      + destruct (DOMAIN_MAX <? zlen (acc ++ tmp)) eqn:D; [apply ag_undef|]. apply Z.ltb_ge in D. unfold DOMAIN_MAX in D.
        apply ag_bind, (ag_free_on_top sa L L0); [exact T|]. intros. apply ag_ret, G; auto.
      + destruct (DOMAIN_MAX <? zlen (acc ++ tmp) + 1); [apply ag_bind, (ag_free_on_top sa L L0); [exact T|]; intros; apply ag_ret, G; auto|].
        destruct (DOMAIN_MAX <? zlen ((acc ++ tmp) ++ [46])) eqn:D; [apply ag_undef|]. apply Z.ltb_ge in D. unfold DOMAIN_MAX in D.
        apply (IH _ L L0); auto. intros. apply G; [lia|assumption].
  Qed.

  (** What may follow a function that delivers at most [n] cells through [o]. *)
  Definition gives (n : Z) (o : slot) (L : list (nat * list Z)) (f : nat) (Q : Z * slot -> heap -> Prop) : Prop :=
    (forall f' c' e', o = None -> (f <= f')%nat -> Q (IDN2_OK, None) (Heap L f' c' e')) /\
    (forall r j m f' c' e', o = Some j -> (f <= m)%nat -> (m < f')%nat -> zlen r <= n -> Q (IDN2_OK, Some (Some m)) (Heap ((m, r) :: L) f' c' e')) /\
    (forall rc f' c' e', (f <= f')%nat -> rc <> IDN2_OK -> Q (rc, o) (Heap L f' c' e')).
  Lemma gives_later : forall n o L f f' Q, gives n o L f Q -> (f <= f')%nat -> gives n o L f' Q.
  Proof.
    intros n o L f f' Q (K1 & K2 & K3) F. split; [|split].
    - intros. apply K1; auto. lia.
    - intros. apply (K2 r j); auto. lia.
    - intros. apply K3; auto. lia.
  Qed.
  Lemma gives_bad : forall n o L f Q rc f' c' e', gives n o L f Q -> (f <= f')%nat -> rc <> IDN2_OK -> Q (rc, o) (Heap L f' c' e').
  Proof. intros n o L f Q rc f' c' e' (_ & _ & G) F N. auto. Qed.

  Lemma ag_hand_out : forall o r L f c e Q, cells L + zlen r <= B -> gives (zlen r) o L f Q ->
    agree (hand_out E o r) (hand_out E' o r) (Heap L f c e) Q.
  Proof.
    intros [j|] r L f c e Q H (K1 & K2 & K3); unfold hand_out.
    - apply ag_bind, ag_acquire; [exact H|discriminate|]. intros l X. injection X as <-. apply ag_ret, (K2 r j); auto; lia.
    - apply ag_ret, K1; auto.
  Qed.

  Lemma default_no_tr46 : forall fl fl', set_default_flags fl = Ok fl' -> has fl' IDN2_NO_TR46 = has fl IDN2_NO_TR46.
  Proof.
    intros fl fl' H. unfold set_default_flags in H. repeat (destruct (_ && _) in H; try discriminate).
    destruct (negb _) in H; injection H as <-; [|reflexivity]. unfold has. rewrite Z.land_lor_distr_l.
    change (Z.land IDN2_NONTRANSITIONAL IDN2_NO_TR46) with 0. now rewrite Z.lor_0_r.
  Qed.

  Lemma ag_lookup_u8 : forall junk a n o flags L f c e Q, (forall s, reads a L s -> zlen s <= n) -> n < two64 ->
    cells L + lookup_needs flags n <= B -> gives 255 o L f Q ->
    agree (m_lookup_u8 E U junk (Some a) o flags) (m_lookup_u8 E' U junk (Some a) o flags) (Heap L f c e) Q.
  Proof.
    intros junk a n o flags L f c e Q An Bn H G. unfold m_lookup_u8. unfold lookup_needs in H.
    apply ag_bind, ag_try.
    2:{ intros rc D. apply ag_ret. apply (gives_bad _ _ _ _ _ _ _ _ _ G); [lia|]. intros ->.
        unfold set_default_flags in D. repeat (destruct (_ && _) in D; try discriminate). destruct (negb _) in D; discriminate. }
    intros fl D. apply default_no_tr46 in D. rewrite <- D in H. clear D.
    assert (Go : forall b sa L' f' c' e' m, on_top sa L' L -> (f <= f')%nat -> (forall s, reads b L' s -> zlen s <= m) -> m < two64 ->
      cells L' + Z.max (20 * m) 5292 <= B ->
      agree (let! s := cstr b in let! (rc, r) := m_lookup_labels E U b sa fl (split_dots s) [] in
             if negb (rc =? IDN2_OK) then ret (rc, o) else hand_out E o r)
            (let! s := cstr b in let! (rc, r) := m_lookup_labels E' U b sa fl (split_dots s) [] in
             if negb (rc =? IDN2_OK) then ret (rc, o) else hand_out E' o r) (Heap L' f' c' e') Q).
    { intros b sa L' f' c' e' m T F Rm Mm HB. apply ag_bind, ag_cstr. intros s Rs. cbn [live] in Rs. apply Rm in Rs.
      assert (CL : cells L <= cells L') by (destruct sa; cbn in T; [destruct T as (l & ->); sizes; lia|subst; lia]).
      apply ag_bind, (ag_lookup_labels _ _ _ m _ _ _ L); [exact T|change (zlen (@nil Z)) with 0; lia| |exact Mm|exact HB|].
      - apply Forall_forall. intros z Iz. apply split_zlen in Iz. lia.
      - intros rc r f2 c2 e2 F2 Zr. destruct (rc =? IDN2_OK) eqn:RC; cbn [negb].
        + apply Z.eqb_eq in RC. subst rc. apply ag_hand_out; [lia|]. destruct G as (K1 & K2 & K3). split; [|split].
          * intros. apply K1; auto; lia.
          * intros. apply (K2 r0 j); auto; lia.
          * intros. apply K3; auto; lia.
        + apply Z.eqb_neq in RC. apply ag_ret. apply (gives_bad _ _ _ _ _ _ _ _ _ G); [lia|exact RC]. }
    apply ag_bind. destruct (has fl IDN2_NO_TR46) eqn:TR; cbn [negb].
    - apply ag_ret. apply (Go a None L f c e n); auto. reflexivity.
    - apply ag_bind, (ag_tr46 _ n); [exact An|lia| |].
      + intros k x f' c' e' F1 F2 Zx. change (negb (IDN2_OK =? IDN2_OK)) with false. cbv iota. apply ag_bind, ag_local. apply ag_ret.
        apply (Go (Block k) (Some k) _ f' c' e' 4080); [now exists x|lia| |unfold two64; lia|sizes; lia].
        intros s (l & A & <-). cbn [find_block] in A. rewrite Nat.eqb_refl in A. injection A as <-. pose proof (upto0_zlen x). lia.
      + intros rc f' c' e' F N. rewrite (proj2 (Z.eqb_neq rc IDN2_OK) N). cbn [negb]. apply ag_ret, ag_ret.
        apply (gives_bad _ _ _ _ _ _ _ _ _ G); [lia|exact N].
  Qed.
End Room.
