(** The internal functions with memory: lib/idna.c, lib/lookup.c. *)
From Verif Require Import Base Uenv Utf8 Bidi Context Idna Puny Lookup Api Register LookupProofs NonZero NoFail ApiProofs
  Heap SpecHeap HeapProofs.

Ltac frees := repeat (apply run_bind; first [apply run_free_top | apply run_free_null]).
Ltac now_failed := apply failed_now; [assumption|lia].
Ltac now_refused := apply refused_now; [discriminate|].

Section Mem.
  Variable E : allocator.
  Variable U : uenv.

  Lemma label_test_split : forall what s,
    label_test U what s = bind (when (has what TEST_NFC) (test_nfc U s)) (fun _ => later_tests U what s).
  Proof. reflexivity. Qed.

  Lemma wp_label_test : forall what a s L f c e (Q : Z -> heap -> Prop), below L f -> there a L -> safe (label_test U what s) ->
    (forall f' c' e', (f <= f')%nat -> (c <= c')%nat -> label_test U what s = Ok tt -> Q IDN2_OK (Heap L f' c' e')) ->
    (forall rc f' c' e', (f <= f')%nat -> (c <= c')%nat -> bad E c c' (label_test U what s) rc ->
       Q rc (Heap L f' c' e')) ->
    run (m_label_test E U what a s) (Heap L f c e) Q.
  Proof.
    intros what a s L f c e Q B A S K1 K2.
    assert (NZ := nz_label_test U what s). rewrite label_test_split in *.
    assert (Rest : forall f' c' e', (f <= f')%nat -> (c <= c')%nat -> when (has what TEST_NFC) (test_nfc U s) = Ok tt ->
      run (let! _ := touch a in let! r := try (later_tests U what s) in ret (rc_only r)) (Heap L f' c' e') Q).
    { intros f' c' e' Gf Gc W. rewrite W in *. cbn [bind] in *.
      apply run_bind, run_touch; [exact A|]. apply run_bind, run_try; [exact S| |].
      - intros [] T. apply run_ret. now apply K1.
      - intros rc T. apply run_ret. apply K2; auto. apply bad_fail; auto. }
    unfold m_label_test. destruct (has what TEST_NFC) eqn:H; cbn [when] in *.
    - apply run_bind, run_touch; [exact A|]. apply run_bind, run_acquire.
      + intros F. apply run_or. apply K2; [lia|lia|now_failed].
      + intros N. apply run_or. apply K2; [lia|lia|now_refused]. unfold test_nfc; now rewrite N.
      + intros l N. apply run_bind, run_touch; [eauto with blk|].
        apply run_bind, (run_load _ _ _ _ _ l); [cbn [alive find_block]; now rewrite Nat.eqb_refl|]. cbv zeta.
        frees. unfold test_nfc in *. rewrite N in *. cbn [conv bind] in *.
        destruct (list_eqb s l) eqn:Q1.
        * apply Rest; [lia|lia|]. reflexivity.
        * apply run_ret. apply K2; [lia|lia|]. apply bad_here; discriminate.
    - apply Rest; auto.
  Qed.

  Lemma wp_u8_to_u32_nfc : forall a s nfc old L f c e (Q : Z * option nat -> heap -> Prop), below L f -> there a L ->
    (forall l n f' c' e', (f <= n)%nat -> (n < f')%nat -> (c <= c')%nat -> u8_to_u32_nfc U s nfc = Ok l ->
       Q (IDN2_OK, Some n) (Heap ((n, l) :: L) f' c' e')) ->
    (forall rc f' c' e', (f <= f')%nat -> (c <= c')%nat -> bad E c c' (u8_to_u32_nfc U s nfc) rc ->
       Q (rc, old) (Heap L f' c' e')) ->
    run (m_u8_to_u32_nfc E U a s nfc old) (Heap L f c e) Q.
  Proof.
    intros a s nfc old L f c e Q B A K1 K2. assert (S := u8_nfc_safe U s nfc).
    unfold m_u8_to_u32_nfc. unfold u8_to_u32_nfc in *.
    apply run_bind, run_touch; [exact A|]. apply run_bind, run_acquire.
    - intros F. apply run_bind, run_or, run_ret. apply K2; [lia|lia|now_failed].
    - intros N. rewrite N in *. apply run_bind, run_or, run_ret. apply K2; [lia|lia|now_refused]. reflexivity.
    - intros l N. rewrite N in *. cbn [conv bind] in *. destruct nfc.
      + apply run_bind, (run_load _ _ _ _ _ l); [cbn [alive find_block]; now rewrite Nat.eqb_refl|].
        apply run_bind, run_must; [now apply safe_left in S|apply nf_isNFC|]. intros k I. rewrite I in *. cbn [bind] in *.
        destruct (k =? 0).
        * apply run_bind, run_touch; [exists l; cbn [alive find_block]; now rewrite Nat.eqb_refl|].
          apply run_bind, run_acquire.
          -- intros F. frees. apply run_bind, run_or, run_ret. apply K2; [lia|lia|];
             apply (failed_then E _ _ _ _ (Datatypes.S c)); auto; now right.
          -- intros M. frees. apply run_bind, run_or, run_ret. rewrite M in K2. apply K2; [lia|lia|];
             apply (refused_then E _ _ _ _ _); auto; now right.
          -- intros l' M. apply run_bind, run_free_second; [lia|]. apply run_ret. apply K1; [lia|lia|lia|]. rewrite M. reflexivity.
        * apply run_ret. apply K1; auto.
      + apply run_ret. apply K1; auto.
  Qed.

  Lemma label_tail_split : forall s org dstlen flags, label_tail U s org dstlen flags =
    bind (u8_to_u32_nfc U s (has flags IDN2_NFC_INPUT)) (fun p =>
    bind (when (negb (has flags IDN2_TRANSITIONAL)) (label_test U (label_tests flags) p)) (fun _ => label_encode p org dstlen flags)).
  Proof. reflexivity. Qed.

  (** [sa]: src_allocated, NULL or on top of the other blocks. *)
  Definition on_top (sa : option nat) (L L0 : list (nat * list Z)) : Prop :=
    match sa with None => L = L0 | Some n => exists l, L = (n, l) :: L0 end.
  Lemma run_free_on_top : forall sa L L0 f c e (Q : unit -> heap -> Prop), on_top sa L L0 ->
    Q tt (Heap L0 f (S c) (after_free E c e)) -> run (free E sa) (Heap L f c e) Q.
  Proof. intros [n|] L L0 f c e Q T H; cbn in T; [destruct T as (l & ->); now apply run_free_top|subst; now apply run_free_null]. Qed.

  Lemma wp_label_tail : forall a s org sa dstlen flags L L0 f c e (Q : Z * list Z -> heap -> Prop), below L f -> there a L ->
    on_top sa L L0 -> match org with Some (a0, _) => there a0 L | None => True end ->
    let m := label_tail U s (match org with Some (_, s0) => Some s0 | None => None end) dstlen flags in
    safe m ->
    (forall d f' c' e', (f <= f')%nat -> (c <= c')%nat -> m = Ok d -> Q (IDN2_OK, d) (Heap L0 f' c' e')) ->
    (forall rc d f' c' e', (f <= f')%nat -> (c <= c')%nat -> bad E c c' (m) rc ->
       Q (rc, d) (Heap L0 f' c' e')) ->
    run (m_label_tail E U a s org sa dstlen flags) (Heap L f c e) Q.
  Proof.
    intros a s org sa dstlen flags L L0 f c e Q B A T O m S K1 K2. subst m. rewrite label_tail_split in *.
    set (so := match org with Some (_, s0) => Some s0 | None => None end) in *.
    assert (Out : forall (r : list Z + Z) p L' f' c' e', on_top p L' L ->
      (forall c'' e'', (c' <= c'')%nat -> Q (match r with inl d => (IDN2_OK, d) | inr rc => (rc, []) end) (Heap L0 f' c'' e'')) ->
      run (let! _ := free E p in let! _ := free E sa in ret (match r with inl d => (IDN2_OK, d) | inr rc => (rc, []) end))
        (Heap L' f' c' e') Q).
    { intros r p L' f' c' e' T' H. apply run_bind, (run_free_on_top p L' L); [exact T'|].
      apply run_bind, (run_free_on_top sa L L0); [exact T|]. apply run_ret. apply H. lia. }
    unfold m_label_tail. apply run_bind, wp_u8_to_u32_nfc; [exact B|exact A| |].
    - intros l n f' c' e' Gn Gf Gc M. rewrite M in *. cbn [bind] in *.
      change (negb (IDN2_OK =? IDN2_OK)) with false. cbv iota.
      assert (B' : below ((n, l) :: L) f') by (apply below_cons; [apply (below_mono L f); [exact B|lia]|exact Gf]).
      assert (A' : there (Block n) ((n, l) :: L)) by (exists l; cbn [alive find_block]; now rewrite Nat.eqb_refl).
      apply run_bind. cbn [local]. apply run_bind, run_ret.
      apply run_bind, (run_load _ _ _ _ _ l); [cbn [alive find_block]; now rewrite Nat.eqb_refl|].
      assert (Enc : forall f'' c'' e'', (f' <= f'')%nat -> (c' <= c'')%nat ->
        when (negb (has flags IDN2_TRANSITIONAL)) (label_test U (label_tests flags) l) = Ok tt ->
        run (let! _ := touch (Block n) in let! _ := match org with Some (a0, _) => touch a0 | None => ret tt end in
             try (label_encode l so dstlen flags)) (Heap ((n, l) :: L) f'' c'' e'')
          (fun r h' => run (let! _ := free E (Some n) in let! _ := free E sa in
             ret (match r with inl d => (IDN2_OK, d) | inr rc => (rc, []) end)) h' Q)).
      { intros f'' c'' e'' Gf' Gc' W. rewrite W in *. cbn [bind] in *.
        assert (NZ : nz (label_encode l so dstlen flags)).
        { intros rc R. apply (nz_label_tail U s so dstlen flags). rewrite label_tail_split, M. cbn [bind]. rewrite W. exact R. }
        apply run_bind, run_touch; [exact A'|]. apply run_bind.
        assert (Go : run (try (label_encode l so dstlen flags)) (Heap ((n, l) :: L) f'' c'' e'')
          (fun r h' => run (let! _ := free E (Some n) in let! _ := free E sa in
             ret (match r with inl d => (IDN2_OK, d) | inr rc => (rc, []) end)) h' Q)).
        { apply run_try; [exact S| |].
          - intros d R. apply (Out (inl d)); [now exists l|]. intros. apply K1; auto; lia.
          - intros rc R. apply (Out (inr rc)); [now exists l|]. intros. apply K2; [lia|lia|]. now apply bad_fail. }
        destruct org as [[a0 s0]|]; [|apply run_ret; exact Go].
        apply run_touch; [|exact Go]. apply (there_cons a0 L f); auto. }
      assert (Bad : forall rc f'' c'' e'', (f' <= f'')%nat -> (c' <= c'')%nat ->
        bad E c' c'' (when (negb (has flags IDN2_TRANSITIONAL)) (label_test U (label_tests flags) l)) rc ->
        run (let! _ := free E (Some n) in let! _ := free E sa in ret (rc, @nil Z)) (Heap ((n, l) :: L) f'' c'' e'') Q).
      { intros rc f'' c'' e'' Gf' Gc' V. apply (Out (inr rc)); [now exists l|]. intros c3 e3 G3.
        apply K2; [lia|lia|]. apply (bad_widen E _ _ _ _ _ _ _ _ _ V); auto. now intros ->. }
      apply run_bind. destruct (negb (has flags IDN2_TRANSITIONAL)) eqn:TR; cbn [when] in *.
      + apply wp_label_test; [exact B'|exact A'|now apply safe_left in S| |].
        * intros f'' c'' e'' Gf' Gc' W. change (negb (IDN2_OK =? IDN2_OK)) with false. cbv iota. apply Enc; auto.
        * intros rc f'' c'' e'' Gf' Gc' V. rewrite (proj2 (Z.eqb_neq rc IDN2_OK) (proj1 V)). cbn [negb].
          apply run_ret. apply (Bad rc); auto.
      + apply run_ret. change (negb (IDN2_OK =? IDN2_OK)) with false. cbv iota. apply Enc; auto.
    - intros rc f' c' e' Gf Gc V. rewrite (proj2 (Z.eqb_neq rc IDN2_OK) (proj1 V)). cbn [negb]. apply run_bind, run_ret.
      apply (Out (inr rc)); [reflexivity|]. intros c3 e3 G3. apply K2; [lia|lia|].
      apply (bad_widen E _ _ _ _ _ _ _ _ _ V); auto. now intros ->.
  Qed.

  Lemma wp_label : forall a s dstlen flags L f c e (Q : Z * list Z -> heap -> Prop), below L f -> there a L ->
    safe (label U s dstlen flags) ->
    (forall d f' c' e', (f <= f')%nat -> (c <= c')%nat -> label U s dstlen flags = Ok d -> Q (IDN2_OK, d) (Heap L f' c' e')) ->
    (forall rc d f' c' e', (f <= f')%nat -> (c <= c')%nat -> bad E c c' (label U s dstlen flags) rc ->
       Q (rc, d) (Heap L f' c' e')) ->
    run (m_label E U a s dstlen flags) (Heap L f c e) Q.
  Proof.
    intros a s dstlen flags L f c e Q B A S K1 K2. unfold m_label. unfold label in *.
    apply run_bind, run_touch; [exact A|]. destruct (ascii_p s).
    - destruct (negb (has flags IDN2_NO_ALABEL_ROUNDTRIP) && has_ace_prefix s).
      + apply run_bind, run_try; [now apply safe_left in S| |].
        * intros l D. rewrite D in *. cbn [bind] in *. apply run_bind, run_acquire.
          -- intros F. apply run_bind, run_or, run_ret. apply K2; [lia|lia|now_failed].
          -- intros N. rewrite N in *. apply run_bind, run_or, run_ret. apply K2; [lia|lia|now_refused]. reflexivity.
          -- intros x N. rewrite N in *. cbn [conv bind] in *.
             assert (A' : alive (Block f) ((f, x) :: L) x) by (cbn [alive find_block]; now rewrite Nat.eqb_refl).
             apply run_bind, (run_load _ _ _ _ _ x); [exact A'|].
             apply (wp_label_tail _ _ (Some (a, s)) _ _ _ _ L).
             ++ apply below_cons; [apply (below_mono L f); [exact B|lia]|lia].
             ++ now exists x.
             ++ now exists x.
             ++ apply (there_cons a L f); auto.
             ++ exact S.
             ++ intros. apply K1; auto; lia.
             ++ intros rc d f' c' e' G1 G2 V. apply K2; [lia|lia|]. apply (bad_widen E _ _ _ _ _ _ _ _ _ V); auto.
        * intros rc D. rewrite D in *. cbn [bind] in *. apply run_ret. apply K2; auto. apply bad_here. now apply (nz_decode _ _ _ _ D).
      + destruct (LABEL_MAX <? zlen s); [apply run_ret, K2; auto; apply bad_here; discriminate|].
        destruct (dstlen <? zlen s); [apply run_ret, K2; auto; apply bad_here; discriminate|]. apply run_ret, K1; auto.
    - apply (wp_label_tail _ _ None _ _ _ _ L); auto. reflexivity.
  Qed.

  (** The loop over the labels.  [err]: as without memory problems; [err']: the
      variable err here. *)
  Definition clouded (c c' : nat) (err err' : Z) : Prop := err' = err \/ (err' <> IDN2_OK /\ starved E c c' err').
  Lemma wp_tr46_checks : forall d flags ls L x f c e err err' c0 (Q : Z + Z -> heap -> Prop),
    below ((d, x) :: L) f -> (c0 <= c)%nat -> clouded c0 c err err' -> safe (tr46_checks U flags ls err) ->
    (forall r r' f' c' e', (f <= f')%nat -> (c <= c')%nat -> tr46_checks U flags ls err = Ok r -> clouded c0 c' r r' ->
       Q (inl r') (Heap ((d, x) :: L) f' c' e')) ->
    (forall rc f' c' e', (f <= f')%nat -> (c <= c')%nat -> bad E c0 c' (tr46_checks U flags ls err) rc -> Q (inr rc) (Heap L f' c' e')) ->
    run (m_tr46_checks E U d flags ls err') (Heap ((d, x) :: L) f c e) Q.
  Proof.
    intros d flags ls. induction ls as [|s rest IH]; intros L x f c e err err' c0 Q B G0 Cl S K1 K2.
    - cbn [m_tr46_checks tr46_checks] in *. apply run_bind, run_touch; [exists x; cbn [alive find_block]; now rewrite Nat.eqb_refl|].
      apply run_ret. now apply (K1 err).
    - cbn [m_tr46_checks]. cbv zeta.
      set (std3 := if has flags IDN2_USE_STD3_ASCII_RULES then 0 else TEST_ALLOW_STD3_DISALLOWED).
      assert (A : there (Block d) ((d, x) :: L)) by (exists x; cbn [alive find_block]; now rewrite Nat.eqb_refl).
      apply run_bind, run_touch; [exact A|].
      assert (Visit : (s = [] /\ rest = []) \/
        ((forall T (u v : T), match s, rest with [], [] => u | _, _ => v end = v))).
      { destruct s; [|now right]. destruct rest; [now left|now right]. }
      destruct Visit as [(-> & ->)|V]; [apply run_ret; now apply (K1 err)|].
      rewrite V. cbn [tr46_checks] in S, K1, K2. rewrite V in S, K1, K2. clear V. unfold tr46_check1 in S, K1, K2. fold std3 in S, K1, K2.
      (* after the label test, whatever it was *)
      assert (Next : forall what t f' c' e', (f <= f')%nat -> (c <= c')%nat ->
        safe (match label_test U what t with Ok _ => tr46_checks U flags rest err | Fail rc => tr46_checks U flags rest rc
              | Undef => Undef | NoFuel => NoFuel end) ->
        (forall r r' f'' c'' e'', (f <= f'')%nat -> (c <= c'')%nat ->
          match label_test U what t with Ok _ => tr46_checks U flags rest err | Fail rc => tr46_checks U flags rest rc
              | Undef => Undef | NoFuel => NoFuel end = Ok r -> clouded c0 c'' r r' -> Q (inl r') (Heap ((d, x) :: L) f'' c'' e'')) ->
        (forall rc f'' c'' e'', (f <= f'')%nat -> (c <= c'')%nat ->
          bad E c0 c'' (match label_test U what t with Ok _ => tr46_checks U flags rest err | Fail rc => tr46_checks U flags rest rc
              | Undef => Undef | NoFuel => NoFuel end) rc -> Q (inr rc) (Heap L f'' c'' e'')) ->
        forall a, there a ((d, x) :: L) ->
        run (let! rc := m_label_test E U what a t in m_tr46_checks E U d flags rest (if rc =? IDN2_OK then err' else rc))
          (Heap ((d, x) :: L) f' c' e') Q).
      { intros what t f' c' e' Gf Gc S' K1' K2' a A'.
        assert (B' : below ((d, x) :: L) f') by (apply (below_mono _ f); auto).
        assert (NZ := nz_label_test U what t).
        apply run_bind, wp_label_test; [exact B'|exact A'| | |].
        - destruct (label_test U what t); cbn [safe] in *; tauto.
        - intros f'' c'' e'' Gf' Gc' W. rewrite W in *. change (IDN2_OK =? IDN2_OK) with true. cbv iota.
          apply (IH L x f'' c'' e'' err err' c0).
          + apply (below_mono _ f'); auto.
          + lia.
          + destruct Cl as [->|(N & St)]; [now left|right]. split; [exact N|]. apply (starved_widen E c0 c); auto; lia.
          + exact S'.
          + intros. apply (K1' r); auto; lia.
          + intros. apply K2'; auto; lia.
        - intros rc f'' c'' e'' Gf' Gc' (N & W). rewrite (proj2 (Z.eqb_neq rc IDN2_OK) N).
          assert (exists err2, match label_test U what t with Ok _ => tr46_checks U flags rest err | Fail rc => tr46_checks U flags rest rc
              | Undef => Undef | NoFuel => NoFuel end = tr46_checks U flags rest err2 /\ clouded c0 c'' err2 rc) as (err2 & Q2 & Cl2).
          { destruct W as [W|W].
            - exists rc. rewrite W. split; [reflexivity|now left].
            - destruct (label_test U what t) as [?|rc2| |]; cbn [safe] in S'; try tauto.
              + exists err. split; [reflexivity|right]. split; [exact N|]. apply (starved_widen E c' c''); auto; lia.
              + exists rc2. split; [reflexivity|right]. split; [exact N|]. apply (starved_widen E c' c''); auto; lia. }
          rewrite Q2 in *. apply (IH L x f'' c'' e'' err2 rc c0).
          + apply (below_mono _ f'); auto.
          + lia.
          + exact Cl2.
          + exact S'.
          + intros. apply (K1' r); auto; lia.
          + intros. apply K2'; auto; lia. }
      destruct (has_ace_prefix s).
      + apply run_bind, run_acquire.
        * intros F. frees. apply run_bind, run_or, run_ret. apply K2; [lia|lia|];
            apply (failed_then E _ _ _ c0 c); auto; now left.
        * intros N. rewrite N in *. frees. apply run_bind, run_or, run_ret. apply K2; [lia|lia|];
            apply (refused_then E _ _ _ c0); auto; now left.
        * intros l N. rewrite N in *. cbn [conv bind] in *.
          apply run_bind, (run_load _ _ _ _ _ l); [cbn [alive find_block]; now rewrite Nat.eqb_refl|].
          apply run_bind, run_try; [destruct (puny_decode l LABEL_MAX LABEL_MAX); cbn [bind safe] in *; tauto| |].
          -- intros name D. rewrite D in *. cbn [bind] in *. frees. apply Next; auto; try lia. eauto with blk.
          -- intros rc D. rewrite D in *. cbn [bind] in *. frees. apply run_ret. apply K2; [lia|lia|]. apply bad_here.
             now apply (nz_decode _ _ _ _ D).
      + cbn [bind] in *. apply Next; auto.
  Qed.

  Lemma upto0_until0 : forall l s, until0 l = Some s -> upto0 l = s.
  Proof.
    induction l as [|c l IH]; intros s; cbn [until0 upto0]; [discriminate|].
    destruct (c =? 0); [congruence|]. destruct (until0 l) as [p|]; [|discriminate]. intros H. injection H as <-. now rewrite (IH p).
  Qed.

  Lemma wp_tr46 : forall a s flags old L f c e (Q : Z * option nat -> heap -> Prop), below L f -> reads a L s ->
    safe (tr46 U s flags) ->
    (forall o n x f' c' e', (f <= n)%nat -> (n < f')%nat -> (c <= c')%nat -> tr46 U s flags = Ok o -> upto0 x = o ->
       Q (IDN2_OK, Some n) (Heap ((n, x) :: L) f' c' e')) ->
    (forall rc f' c' e', (f <= f')%nat -> (c <= c')%nat -> bad E c c' (tr46 U s flags) rc ->
       Q (rc, old) (Heap L f' c' e')) ->
    run (m_tr46 E U a flags old) (Heap L f c e) Q.
  Proof.
    intros a s flags old L f c e Q B R S K1 K2. unfold m_tr46. unfold tr46 in *.
    apply run_bind, (run_cstr a L f c e s); [exact R|]. apply run_bind, run_acquire.
    - intros F. apply run_bind, run_or, run_ret. apply K2; [lia|lia|now_failed].
    - intros N. rewrite N in *. apply run_bind, run_or, run_ret. apply K2; [lia|lia|now_refused]. reflexivity.
    - intros l N. rewrite N in *. cbn [conv bind] in *.
      assert (Top : forall n (y : list Z) M, alive (Block n) ((n, y) :: M) y) by (intros; cbn [alive find_block]; now rewrite Nat.eqb_refl).
      apply run_bind, (run_load _ _ _ _ _ l); [apply Top|].
      apply run_bind, run_try; [now apply safe_left in S| |].
      2:{ intros rc T. rewrite T in *. frees. apply run_ret. apply K2; [lia|lia|]. apply bad_here. now apply (nz_tr46_len _ _ _ _ T). }
      intros len2 T. rewrite T in *. cbn [bind] in *. destruct (DOMAIN_MAX <=? len2).
      { frees. apply run_ret. apply K2; [lia|lia|]. apply bad_here; discriminate. }
      apply run_bind, run_acquire.
      { intros F. frees. apply run_ret. apply K2; [lia|lia|]. apply (bad_starved E _ _ c (Datatypes.S (Datatypes.S c))); [|lia|lia]. apply (starved_here E _ _ (Datatypes.S c)); [exact F|lia]. }
      { discriminate. }
      intros l0 El. injection El as <-.
      apply run_bind, (run_load _ _ _ _ _ l).
      { cbn [alive find_block]. rewrite (proj2 (Nat.eqb_neq (Datatypes.S f) f)) by lia. now rewrite Nat.eqb_refl. }
      apply run_bind, run_must; [now apply safe_left in S|apply nf_tr46_map|]. intros x Mp. rewrite Mp in *. cbn [bind] in *.
      destruct (len2 + 1 <? zlen x + 1); [contradiction|].
      apply run_bind, (run_fill _ _ _ _ _ _ _ (blank (len2 + 1))); [cbn [find_block]; now rewrite Nat.eqb_refl|].
      cbn [fill_block]. rewrite Nat.eqb_refl. apply run_bind, run_free_second; [lia|].
      apply run_bind, (run_load _ _ _ _ _ (x ++ [0])); [apply Top|].
      apply run_bind, run_acquire.
      { intros F. frees. apply run_bind, run_or, run_ret. apply K2; [lia|lia|];
          apply (failed_then E _ _ _ _ (Datatypes.S (Datatypes.S (Datatypes.S c)))); auto; try lia; now left. }
      { intros M. rewrite M in *. frees. apply run_bind, run_or, run_ret. apply K2; [lia|lia|];
          apply (refused_then E); auto; try lia; now left. }
      intros n M. rewrite M in *. cbn [conv bind] in *. apply run_bind, run_free_second; [lia|].
      apply run_bind, (run_load _ _ _ _ _ n); [apply Top|].
      destruct (until0 n) as [name|]; [|contradiction].
      apply run_bind, (wp_tr46_checks _ _ _ _ _ _ _ _ IDN2_OK IDN2_OK c).
      + apply below_cons; [apply (below_mono L f); [exact B|lia]|lia].
      + lia.
      + now left.
      + now apply safe_left in S.
      + intros r r' f' c' e' Gf Gc Ck Cl. rewrite Ck in *. cbn [bind] in *.
        destruct Cl as [->|(Nz & St)].
        * destruct (r =? IDN2_OK) eqn:R0; cbn [negb] in *.
          -- apply run_bind, (run_load _ _ _ _ _ n); [apply Top|]. apply run_bind, run_acquire.
             ++ intros F. frees. apply run_bind, run_or, run_ret. apply K2; [lia|lia|];
                  apply (failed_then E _ _ _ _ c'); auto; try lia; now left.
             ++ intros O. rewrite O in *. frees. apply run_bind, run_or, run_ret. apply K2; [lia|lia|];
                  apply (refused_then E); auto; try lia; now left.
             ++ intros o O. rewrite O in *. cbn [conv bind] in *. apply run_bind, run_free_second; [lia|].
                apply run_ret. apply Z.eqb_eq in R0. rewrite R0. destruct (until0 o) as [w|] eqn:W; [|contradiction].
                apply (K1 w); [lia|lia|lia|reflexivity|now apply upto0_until0].
          -- frees. apply run_ret. apply Z.eqb_neq in R0. apply K2; [lia|lia|]. now apply bad_here.
        * rewrite (proj2 (Z.eqb_neq r' IDN2_OK) Nz). frees. apply run_ret. apply K2; [lia|lia|].
          apply (bad_starved E _ _ _ _ _ _ _ St); lia.
      + intros rc f' c' e' Gf Gc V. apply run_ret. apply K2; [lia|lia|].
        apply (bad_widen E _ _ _ _ _ _ _ _ _ V); auto. now intros ->.
  Qed.

  Lemma wp_lookup_labels : forall a sa flags ls acc L L0 f c e (Q : Z * list Z -> heap -> Prop), below L f -> there a L ->
    on_top sa L L0 -> safe (lookup_labels U flags ls acc) ->
    (forall r f' c' e', (f <= f')%nat -> (c <= c')%nat -> lookup_labels U flags ls acc = Ok r -> Q (IDN2_OK, r) (Heap L0 f' c' e')) ->
    (forall rc r f' c' e', (f <= f')%nat -> (c <= c')%nat -> bad E c c' (lookup_labels U flags ls acc) rc -> Q (rc, r) (Heap L0 f' c' e')) ->
    run (m_lookup_labels E U a sa flags ls acc) (Heap L f c e) Q.
  Proof.
    intros a sa flags ls. induction ls as [|l rest IH]; intros acc L L0 f c e Q B A T S K1 K2.
    - cbn [m_lookup_labels lookup_labels] in *. apply run_bind, (run_free_on_top sa L L0); [exact T|]. apply run_ret. apply K1; auto; lia.
    - cbn [m_lookup_labels lookup_labels] in *. cbv zeta in *. apply run_bind, run_touch; [exact A|].
      apply run_bind, wp_label; [exact B|exact A|now apply safe_left in S| |].
      + intros d f' c' e' Gf Gc W. rewrite W in *. cbn [bind] in *. change (negb (IDN2_OK =? IDN2_OK)) with false. cbv iota.
        apply run_bind, run_touch; [exact A|].
        set (final := match rest with [] => true | _ => false end) in *.
        destruct (DOMAIN_MAX - _ <? _).
        { apply run_bind, (run_free_on_top sa L L0); [exact T|]. apply run_ret. apply K2; [lia|lia|]. apply bad_here; discriminate. }
        destruct (DOMAIN_MAX + 1 <? _); [contradiction|]. destruct final.
        * destruct (DOMAIN_MAX <? _); [contradiction|].
          apply run_bind, (run_free_on_top sa L L0); [exact T|]. apply run_ret. apply K1; [lia|lia|reflexivity].
        * destruct (DOMAIN_MAX <? zlen (acc ++ d) + 1).
          { apply run_bind, (run_free_on_top sa L L0); [exact T|]. apply run_ret. apply K2; [lia|lia|]. apply bad_here; discriminate. }
          destruct (DOMAIN_MAX <? zlen ((acc ++ d) ++ [46])); [contradiction|].
          apply (IH _ L L0); auto.
          -- apply (below_mono L f); auto.
          -- intros. apply K1; auto; lia.
          -- intros rc r f'' c'' e'' G1 G2 V. apply K2; [lia|lia|]. apply (bad_widen E _ _ _ _ _ _ _ _ _ V); auto.
      + intros rc d f' c' e' Gf Gc V. rewrite (proj2 (Z.eqb_neq rc IDN2_OK) (proj1 V)). cbn [negb].
        apply run_bind, (run_free_on_top sa L L0); [exact T|]. apply run_ret. apply K2; [lia|lia|].
        apply (bad_widen E _ _ _ _ _ _ _ _ _ V); auto. now intros ->.
  Qed.
End Mem.
