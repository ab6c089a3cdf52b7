(** The public functions with memory. *)
From Verif Require Import Base Uenv Utf8 Bidi Context Idna Puny Lookup Api Register LookupProofs NonZero NoFail ApiProofs
  Heap SpecHeap HeapProofs HeapRun.

Lemma upto0_twice : forall l, upto0 (upto0 l) = upto0 l.
Proof. intros. apply upto0_id, upto0_no0. Qed.

Section Mem.
  Variable E : allocator.
  Variable U : uenv.

  (** What may follow a function that computes [m] and delivers through [o]. *)
  Definition takes (m : out (list Z)) (o : slot) (L : list (nat * list Z)) (f c : nat) (Q : Z * slot -> heap -> Prop) : Prop :=
    (forall r f' c' e', o = None -> (f <= f')%nat -> (c <= c')%nat -> m = Ok r -> Q (IDN2_OK, None) (Heap L f' c' e')) /\
    (forall r j n f' c' e', o = Some j -> (f <= n)%nat -> (n < f')%nat -> (c <= c')%nat -> m = Ok r ->
       Q (IDN2_OK, Some (Some n)) (Heap ((n, r) :: L) f' c' e')) /\
    (forall rc f' c' e', (f <= f')%nat -> (c <= c')%nat -> bad E c c' m rc -> Q (rc, o) (Heap L f' c' e')).
  Lemma takes_later : forall m o L f c f' c' Q, takes m o L f c Q -> (f <= f')%nat -> (c <= c')%nat -> takes m o L f' c' Q.
  Proof.
    intros m o L f c f' c' Q (K1 & K2 & K3) Gf Gc. split; [|split].
    - intros. apply (K1 r); auto; lia.
    - intros. apply (K2 r j); auto; lia.
    - intros rc f2 c2 e2 G1 G2 V. apply K3; [lia|lia|]. apply (bad_widen E _ _ _ _ _ _ _ _ _ V); auto.
  Qed.
  Lemma takes_bad : forall m o L f c Q rc f' c' e', takes m o L f c Q -> (f <= f')%nat -> (c <= c')%nat -> bad E c c' m rc ->
    Q (rc, o) (Heap L f' c' e').
  Proof. intros m o L f c Q rc f' c' e' (_ & _ & K) Gf Gc V. auto. Qed.

  Lemma wp_hand_out : forall o r L f c e Q, takes (Ok r) o L f c Q -> run (hand_out E o r) (Heap L f c e) Q.
  Proof.
    intros [j|] r L f c e Q (K1 & K2 & K3); unfold hand_out.
    - apply run_bind, run_acquire.
      + intros F. apply run_ret, K3; [lia|lia|]. apply (bad_starved E _ _ c (S c)); auto. apply (starved_here E _ _ c); [exact F|lia].
      + discriminate.
      + intros l El. injection El as <-. apply run_ret. apply (K2 r j); auto.
    - apply run_ret, (K1 r); auto.
  Qed.

  (** Results passed on from a local variable. *)
  Lemma wp_pass_on : forall o r n L f c e Q m, m = Ok r -> takes m o L n c Q -> (n < f)%nat ->
    run (pass_on E IDN2_OK o (Some n)) (Heap ((n, r) :: L) f c e) Q.
  Proof.
    intros [j|] r n L f c e Q m M (K1 & K2 & K3) G; unfold pass_on; change (IDN2_OK =? IDN2_OK) with true; cbv iota.
    - apply run_ret. apply (K2 r j); auto.
    - frees. apply run_ret. apply (K1 r); auto; lia.
  Qed.

  Lemma wp_lookup_u8 : forall junk a s o flags L f c e Q, below L f -> reads a L s -> safe (lookup_u8 U s flags) ->
    takes (lookup_u8 U s flags) o L f c Q -> run (m_lookup_u8 E U junk (Some a) o flags) (Heap L f c e) Q.
  Proof.
    intros junk a s o flags L f c e Q B R S K. unfold m_lookup_u8. unfold lookup_u8 in *.
    apply run_bind, run_try; [now apply safe_left in S| |].
    2:{ intros rc D. rewrite D in *. apply run_ret. apply (takes_bad _ _ _ _ _ _ _ _ _ _ K); auto. apply bad_here.
        intros ->. unfold set_default_flags in D. repeat (destruct (_ && _) in D; try discriminate). destruct (negb _) in D; discriminate. }
    intros fl D. rewrite D in *. cbn [bind] in *.
    (* the loop and what follows *)
    assert (Go : forall b sa L' f' c' e' t, on_top sa L' L -> below L' f' -> reads b L' t -> (f <= f')%nat -> (c <= c')%nat ->
      safe (lookup_labels U fl (split_dots t) []) -> takes (lookup_labels U fl (split_dots t) []) o L f c Q ->
      run (let! s := cstr b in let! (rc, r) := m_lookup_labels E U b sa fl (split_dots s) [] in
           if negb (rc =? IDN2_OK) then ret (rc, o) else hand_out E o r) (Heap L' f' c' e') Q).
    { intros b sa L' f' c' e' t T B' R' Gf Gc S' K'. apply run_bind, (run_cstr b L' f' c' e' t); [exact R'|].
      apply run_bind, (wp_lookup_labels E U _ _ _ _ _ _ L); [exact B'|now apply (reads_there b L' t)|exact T|exact S'| |].
      - intros r f2 c2 e2 G1 G2 W. rewrite W in *. change (negb (IDN2_OK =? IDN2_OK)) with false. cbv iota.
        apply wp_hand_out. apply (takes_later _ _ _ f c); auto; lia.
      - intros rc r f2 c2 e2 G1 G2 V. rewrite (proj2 (Z.eqb_neq rc IDN2_OK) (proj1 V)). cbn [negb]. apply run_ret.
        apply (takes_bad _ _ _ _ _ _ _ _ _ _ K'); [lia|lia|]. apply (bad_widen E _ _ _ _ _ _ _ _ _ V); auto. }
    apply run_bind. destruct (negb (has fl IDN2_NO_TR46)).
    - apply run_bind, (wp_tr46 E U a s); [exact B|exact R|now apply safe_left in S| |].
      + intros t n x f' c' e' G1 G2 G3 W X. rewrite W in *. cbn [bind] in *. change (negb (IDN2_OK =? IDN2_OK)) with false. cbv iota.
        cbn [local]. apply run_bind, run_ret, run_ret. apply (Go (Block n) (Some n) _ f' c' e' t); auto; try lia.
        * now exists x.
        * apply below_cons; [apply (below_mono L f); [exact B|lia]|exact G2].
        * exists x. cbn [find_block]. now rewrite Nat.eqb_refl.
      + intros rc f' c' e' G1 G2 V. rewrite (proj2 (Z.eqb_neq rc IDN2_OK) (proj1 V)). cbn [negb]. apply run_ret, run_ret.
        apply (takes_bad _ _ _ _ _ _ _ _ _ _ K); auto. apply (bad_widen E _ _ _ _ _ _ _ _ _ V); auto. now intros ->.
    - apply run_ret. apply (Go a None L f c e s); auto. reflexivity.
  Qed.

  (** A function called with a block that is freed afterwards; [n] below [f]. *)
  Lemma takes_then_free : forall m o n x L f c f0 c0 (Q : Z * slot -> heap -> Prop), takes m o L f c Q ->
    (f <= f0)%nat -> (n < f0)%nat -> (c <= c0)%nat ->
    takes m o ((n, x) :: L) f0 c0 (fun p h' => run (let '(rc, o') := p in let! _ := free E (Some n) in ret (rc, o')) h' Q).
  Proof.
    intros m o n x L f c f0 c0 Q (K1 & K2 & K3) Gf Gn Gc. split; [|split].
    - intros r f' c' e' O G1 G2 M. frees. apply run_ret. apply (K1 r); auto; lia.
    - intros r j k f' c' e' O G1 G2 G3 M. apply run_bind, run_free_second; [lia|]. apply run_ret. apply (K2 r j); auto; lia.
    - intros rc f' c' e' G1 G2 V. frees. apply run_ret. apply K3; [lia|lia|]. apply (bad_widen E _ _ _ _ _ _ _ _ _ V); auto.
  Qed.
  (** The same where the result goes to a local variable and is passed on. *)
  Lemma takes_then_pass : forall m o junk n x L f c f0 c0 (Q : Z * slot -> heap -> Prop), takes m o L f c Q ->
    (f <= f0)%nat -> (n < f0)%nat -> (c <= c0)%nat -> nz m ->
    takes m (Some junk) ((n, x) :: L) f0 c0 (fun p h' =>
      run (let '(rc, o') := p in let! _ := free E (Some n) in pass_on E rc o (of_slot o')) h' Q).
  Proof.
    intros m o junk n x L f c f0 c0 Q K Gf Gn Gc N. split; [|split].
    - discriminate.
    - intros r j k f' c' e' O G1 G2 G3 M. apply run_bind, run_free_second; [lia|]. cbn [of_slot]. apply (wp_pass_on _ _ _ _ _ _ _ _ m); auto.
      apply (takes_later _ _ _ f c); auto; lia.
    - intros rc f' c' e' G1 G2 V. frees. unfold pass_on. rewrite (proj2 (Z.eqb_neq rc IDN2_OK) (proj1 V)). apply run_ret.
      apply (takes_bad _ _ _ _ _ _ _ _ _ _ K); [lia|lia|]. apply (bad_widen E _ _ _ _ _ _ _ _ _ V); auto.
  Qed.

  Lemma wp_lookup_ul : forall Lo junk a s o flags L f c e Q, below L f -> reads a L s ->
    (forall x b, from_locale Lo x = Some b -> ~ In 0 b) ->
    let m := match from_locale Lo s with None => Fail IDN2_ICONV_FAIL | Some b => lookup_u8 U b (Z.lor flags IDN2_NFC_INPUT) end in
    safe m -> takes m o L f c Q -> run (m_lookup_ul E U Lo junk (Some a) o flags) (Heap L f c e) Q.
  Proof.
    intros Lo junk a s o flags L f c e Q B R NL m S K. subst m. unfold m_lookup_ul.
    apply run_bind, (run_cstr a L f c e s); [exact R|]. apply run_bind, run_acquire.
    - intros F. apply run_bind, run_or, run_ret. apply (takes_bad _ _ _ _ _ _ _ _ _ _ K); [lia|lia|now_failed].
    - intros N. rewrite N in *. apply run_bind, run_or, run_ret. apply (takes_bad _ _ _ _ _ _ _ _ _ _ K); [lia|lia|now_refused]. reflexivity.
    - intros b N. rewrite N in *. apply run_bind, (wp_lookup_u8 _ _ b).
      + apply below_cons; [apply (below_mono L f); [exact B|lia]|lia].
      + exists b. cbn [find_block]. rewrite Nat.eqb_refl. split; [reflexivity|]. apply upto0_id. now apply (NL s).
      + exact S.
      + apply (takes_then_free _ _ _ _ _ f c); auto.
  Qed.

  Lemma wp_4z : forall junk a l o flags L f c e Q, below L f -> alive a L l ->
    let m := utf8_in (upto0 l) (fun s => lookup_u8 U s flags) in
    safe m -> takes m o L f c Q -> run (m_to_ascii_4z E U junk (Some a) o flags) (Heap L f c e) Q.
  Proof.
    intros junk a l o flags L f c e Q B R m S K. subst m. unfold m_to_ascii_4z. unfold utf8_in in *.
    apply run_bind, (run_load a L f c e l); [exact R|]. apply run_bind, run_acquire.
    - intros F. apply run_bind, run_or, run_ret. apply (takes_bad _ _ _ _ _ _ _ _ _ _ K); [lia|lia|now_failed].
    - intros N. rewrite N in *. apply run_bind, run_or, run_ret. apply (takes_bad _ _ _ _ _ _ _ _ _ _ K); [lia|lia|now_refused]. reflexivity.
    - intros b N. rewrite N in *. apply run_bind, (wp_lookup_u8 _ _ (upto0 b)).
      + apply below_cons; [apply (below_mono L f); [exact B|lia]|lia].
      + exists b. cbn [find_block]. now rewrite Nat.eqb_refl.
      + exact S.
      + apply (takes_then_free _ _ _ _ _ f c); auto.
  Qed.

  Lemma wp_4i2 : forall junk a l o flags L f c e Q, below L f -> alive a L l ->
    let m := utf8_in l (fun s => lookup_u8 U s flags) in
    safe m -> takes m o L f c Q -> run (m_to_ascii_4i2 E U junk (Some a) o flags) (Heap L f c e) Q.
  Proof.
    intros junk a l o flags L f c e Q B R m S K. assert (NZ : nz m) by (apply nz_utf8_in; auto with nz). subst m.
    unfold m_to_ascii_4i2. unfold utf8_in in *.
    assert (Top : forall n (y : list Z) M, alive (Block n) ((n, y) :: M) y) by (intros; cbn [alive find_block]; now rewrite Nat.eqb_refl).
    apply run_bind, (run_load a _ _ _ _ l); [exact R|].
    apply run_bind, run_acquire.
    - intros F. apply run_ret. apply (takes_bad _ _ _ _ _ _ _ _ _ _ K); [lia|lia|].
      apply (bad_starved E _ _ c (Datatypes.S c)); auto. apply (starved_here E _ _ c); [exact F|lia].
    - discriminate.
    - intros l0 El. injection El as <-. apply run_bind, run_touch; [exists l; apply (alive_cons _ _ f); auto|].
      apply run_bind, (run_fill _ _ _ _ _ _ _ (blank (zlen l + 1))); [cbn [find_block]; now rewrite Nat.eqb_refl|].
      cbn [fill_block]. rewrite Nat.eqb_refl. apply run_bind, (run_load _ _ _ _ _ (l ++ [0])); [apply Top|].
      apply run_bind, run_acquire.
      + intros F. frees. apply run_bind, run_or, run_ret. apply (takes_bad _ _ _ _ _ _ _ _ _ _ K); [lia|lia|].
        apply (failed_then E _ _ _ _ (Datatypes.S c)); auto. now left.
      + intros N. rewrite N in *. frees. apply run_bind, run_or, run_ret. apply (takes_bad _ _ _ _ _ _ _ _ _ _ K); [lia|lia|].
        apply refused_then; auto. now left.
      + intros b N. rewrite N in *. apply run_bind, run_free_second; [lia|]. apply run_bind, (wp_lookup_u8 _ _ (upto0 b)).
        * apply below_cons; [apply (below_mono L f); [exact B|lia]|lia].
        * exists b. cbn [find_block]. now rewrite Nat.eqb_refl.
        * exact S.
        * apply (takes_then_pass _ _ _ _ _ _ f c); auto.
  Qed.

  Lemma wp_4i : forall junk j a l o flags L f c e (Q : Z * option (list Z) -> heap -> Prop), below L f -> alive a L l ->
    let m := to_ascii_4i U j (Some l) o flags in
    safe m -> (forall rc o' f' c' e', (f <= f')%nat -> (c <= c')%nat -> m = Ok (rc, o') -> Q (rc, o') (Heap L f' c' e')) ->
    (forall rc f' c' e', (f <= f')%nat -> (c <= c')%nat -> starved E c c' rc -> Q (rc, o) (Heap L f' c' e')) ->
    run (m_to_ascii_4i E U junk (Some a) o flags) (Heap L f c e) Q.
  Proof.
    intros junk j a l o flags L f c e Q B R m S K1 K2. subst m. unfold m_to_ascii_4i. rewrite f_4i in *.
    apply run_bind, (wp_4i2 _ _ l); [exact B|exact R| |].
    - destruct (utf8_in l _); cbn [safe] in *; tauto.
    - split; [|split].
      + discriminate.
      + intros r k n f' c' e' O G1 G2 G3 M. rewrite M in *. change (IDN2_OK =? IDN2_OK) with true. cbv iota. cbn [of_slot local].
        apply run_bind, run_ret. apply run_bind, (run_load _ _ _ _ _ r); [cbn [alive find_block]; now rewrite Nat.eqb_refl|]. cbv zeta in *.
        apply run_bind. destruct (63 <? zlen (upto0 r)).
        * apply run_ret. frees. apply run_ret. apply K1; auto; lia.
        * destruct o as [x|].
          -- apply run_bind, run_must; [now apply safe_left in S|apply nf_copy_to|]. intros y C. rewrite C in *. cbn [bind] in *.
             apply run_ret. frees. apply run_ret. apply K1; auto; lia.
          -- apply run_ret. frees. apply run_ret. apply K1; auto; lia.
      + intros rc f' c' e' G1 G2 (N & V). rewrite (proj2 (Z.eqb_neq rc IDN2_OK) N). apply run_ret.
        destruct V as [V|V]; [|now apply K2]. rewrite V in *. apply K1; auto.
  Qed.

  (** ** lib/decode.c *)
  Lemma wp_unicode_labels : forall a ls acc L f c e (Q : Z * list Z -> heap -> Prop), below L f -> there a L ->
    safe (unicode_labels ls acc) ->
    (forall r f' c' e', (f <= f')%nat -> (c <= c')%nat -> unicode_labels ls acc = Ok r -> Q (IDN2_OK, r) (Heap L f' c' e')) ->
    (forall rc r f' c' e', (f <= f')%nat -> (c <= c')%nat -> bad E c c' (unicode_labels ls acc) rc -> Q (rc, r) (Heap L f' c' e')) ->
    run (m_unicode_labels E a ls acc) (Heap L f c e) Q.
  Proof.
    intros a ls. induction ls as [|s rest IH]; intros acc L f c e Q B A S K1 K2.
    - cbn [m_unicode_labels unicode_labels] in *. apply run_bind, run_touch; [exact A|]. apply run_ret, K1; auto.
    - cbn [m_unicode_labels]. cbv zeta. apply run_bind, run_touch; [exact A|].
      assert (Visit : (s = [] /\ rest = []) \/ ((forall T (u v : T), match s, rest with [], [] => u | _, _ => v end = v))).
      { destruct s; [|now right]. destruct rest; [now left|now right]. }
      destruct Visit as [(-> & ->)|V]; [apply run_ret, K1; auto|].
      rewrite V. cbn [unicode_labels] in S, K1, K2. rewrite V in S, K1, K2. clear V. cbv zeta in S, K1, K2.
      set (dot := match rest with [] => 0 | _ => 1 end) in *.
      assert (Next : forall l f' c' e', (f <= f')%nat -> (c <= c')%nat ->
        let m := match rest with [] => Ok (acc ++ l) | _ :: _ => let* acc' := put (DOMAIN_MAX + 1) (acc ++ l) 46 in unicode_labels rest acc' end in
        safe m ->
        (forall r f' c' e', (f <= f')%nat -> (c <= c')%nat -> m = Ok r -> Q (IDN2_OK, r) (Heap L f' c' e')) ->
        (forall rc r f' c' e', (f <= f')%nat -> (c <= c')%nat -> bad E c c' m rc -> Q (rc, r) (Heap L f' c' e')) ->
        run (match rest with
             | [] => ret (IDN2_OK, acc ++ l)
             | _ :: _ => let! acc' := must (put (DOMAIN_MAX + 1) (acc ++ l) 46) in m_unicode_labels E a rest acc'
             end) (Heap L f' c' e') Q).
      { intros l f' c' e' Gf Gc m S' K1' K2'. subst m. destruct rest as [|s2 rest2]; [apply run_ret, K1'; auto|].
        apply run_bind, run_must; [now apply safe_left in S'|apply nf_put|]. intros acc' P. rewrite P in *. cbn [bind] in *.
        apply IH; auto.
        - apply (below_mono L f); auto.
        - intros. apply K1'; auto; lia.
        - intros rc r f2 c2 e2 G1 G2 V. apply K2'; [lia|lia|]. apply (bad_widen E _ _ _ _ _ _ _ _ _ V); auto. }
      unfold unicode_label in S, K1, K2. destruct (ace_anycase s).
      + apply run_bind, run_try; [now apply safe_left in S| |].
        * intros l D. rewrite D in *. cbn [bind] in *. destruct (DOMAIN_MAX <? zlen acc + zlen l + dot).
          { apply run_ret, K2; auto. apply bad_here; discriminate. }
          destruct (DOMAIN_MAX + 1 <? zlen acc + zlen l); [contradiction|].
          apply Next; auto.
        * intros rc D. rewrite D in *. apply run_ret, K2; auto. apply bad_here. now apply (nz_decode _ _ _ _ D).
      + apply run_bind, run_acquire.
        * intros F. apply run_bind, run_or, run_ret, K2; [lia|lia|now_failed].
        * intros N. rewrite N in *. apply run_bind, run_or, run_ret, K2; [lia|lia|now_refused]. reflexivity.
        * intros l N. rewrite N in *. cbn [conv bind] in *.
          apply run_bind, (run_load _ _ _ _ _ l); [cbn [alive find_block]; now rewrite Nat.eqb_refl|].
          destruct (LABEL_MAX <? zlen l); cbn [bind] in *.
          { frees. apply run_ret, K2; [lia|lia|]. apply bad_here; discriminate. }
          destruct (DOMAIN_MAX <? zlen acc + zlen l + dot).
          { frees. apply run_ret, K2; [lia|lia|]. apply bad_here; discriminate. }
          destruct (DOMAIN_MAX + 1 <? zlen acc + zlen l); [contradiction|].
          frees. apply Next; auto; lia.
  Qed.

  Lemma wp_8z4z : forall a s o flags L f c e Q, below L f -> reads a L s -> safe (unicode s) ->
    takes (unicode s) o L f c Q -> run (m_to_unicode_8z4z E (Some a) o flags) (Heap L f c e) Q.
  Proof.
    intros a s o flags L f c e Q B R S K. unfold m_to_unicode_8z4z. unfold unicode in *.
    apply run_bind, (run_cstr a L f c e s); [exact R|].
    apply run_bind, wp_unicode_labels; [exact B|now apply (reads_there a L s)|now apply safe_left in S| |].
    - intros r f' c' e' G1 G2 W. rewrite W in *. cbn [bind] in *. change (negb (IDN2_OK =? IDN2_OK)) with false. cbv iota.
      destruct (DOMAIN_MAX <? zlen r); [contradiction|]. destruct K as (K1 & K2 & K3). destruct o as [j|].
      + apply run_bind, run_acquire.
        * intros F. apply run_bind, run_or, run_ret, K3; [lia|lia|now_failed].
        * discriminate.
        * intros l El. injection El as <-. apply run_ret. apply (K2 r j); auto.
      + apply run_ret, (K1 r); auto.
    - intros rc r f' c' e' G1 G2 V. rewrite (proj2 (Z.eqb_neq rc IDN2_OK) (proj1 V)). cbn [negb]. apply run_ret.
      apply (takes_bad _ _ _ _ _ _ _ _ _ _ K); auto. apply (bad_widen E _ _ _ _ _ _ _ _ _ V); auto. now intros ->.
  Qed.

  Lemma wp_4z4z : forall junk a l o flags L f c e Q, below L f -> alive a L l ->
    let m := utf8_in (upto0 l) unicode in
    safe m -> takes m o L f c Q -> run (m_to_unicode_4z4z E junk (Some a) o flags) (Heap L f c e) Q.
  Proof.
    intros junk a l o flags L f c e Q B R m S K. assert (NZ : nz m) by (apply nz_utf8_in; auto with nz). subst m.
    unfold m_to_unicode_4z4z. unfold utf8_in in *.
    apply run_bind, (run_load a L f c e l); [exact R|]. apply run_bind, run_acquire.
    - intros F. apply run_bind, run_or, run_ret. apply (takes_bad _ _ _ _ _ _ _ _ _ _ K); [lia|lia|now_failed].
    - intros N. rewrite N in *. apply run_bind, run_or, run_ret. apply (takes_bad _ _ _ _ _ _ _ _ _ _ K); [lia|lia|now_refused]. reflexivity.
    - intros b N. rewrite N in *. apply run_bind, (wp_8z4z _ (upto0 b)).
      + apply below_cons; [apply (below_mono L f); [exact B|lia]|lia].
      + exists b. cbn [find_block]. now rewrite Nat.eqb_refl.
      + exact S.
      + apply (takes_then_pass _ _ _ _ _ _ f c); auto.
  Qed.

  Lemma wp_44i : forall junk j a l arr outlen flags L f c e (Q : Z * option (list Z) * option Z -> heap -> Prop), below L f -> alive a L l ->
    let m := to_unicode_44i j (Some l) arr outlen flags in
    safe m ->
    (forall rc arr' n' f' c' e', (f <= f')%nat -> (c <= c')%nat -> m = Ok (rc, arr', n') -> Q (rc, arr', n') (Heap L f' c' e')) ->
    (forall rc f' c' e', (f <= f')%nat -> (c <= c')%nat -> starved E c c' rc -> Q (rc, arr, outlen) (Heap L f' c' e')) ->
    run (m_to_unicode_44i E junk (Some a) arr outlen flags) (Heap L f c e) Q.
  Proof.
    intros junk j a l arr outlen flags L f c e Q B R m S K1 K2. subst m. unfold m_to_unicode_44i. rewrite f_44i in *.
    apply run_bind, (run_load a _ _ _ _ l); [exact R|].
    apply run_bind, run_acquire.
    - intros F. apply run_ret, K2; auto. apply (starved_here E _ _ c); [exact F|lia].
    - discriminate.
    - intros l0 El. injection El as <-. apply run_bind, run_touch; [exists l; apply (alive_cons _ _ f); auto|].
      apply run_bind, (run_fill _ _ _ _ _ _ _ (blank (zlen l + 1))); [cbn [find_block]; now rewrite Nat.eqb_refl|].
      cbn [fill_block]. rewrite Nat.eqb_refl.
      apply run_bind, (wp_4z4z _ _ (l ++ [0])).
      + apply below_cons; [apply (below_mono L f); [exact B|lia]|lia].
      + cbn [alive find_block]. now rewrite Nat.eqb_refl.
      + rewrite upto0_term. destruct (utf8_in (upto0 l) unicode); cbn [safe] in *; tauto.
      + rewrite upto0_term. split; [|split].
        * discriminate.
        * intros r k n f' c' e' O G1 G2 G3 M. rewrite M in *. apply run_bind, run_free_second; [lia|].
          change (negb (IDN2_OK =? IDN2_OK)) with false. cbv iota. cbn [of_slot local].
          apply run_bind, run_ret. apply run_bind, (run_load _ _ _ _ _ r); [cbn [alive find_block]; now rewrite Nat.eqb_refl|]. cbv zeta in *.
          apply run_bind.
          assert (Fin : forall arr', (forall f' c' e', (f <= f')%nat -> (c <= c')%nat ->
              Q (IDN2_OK, arr', match outlen with Some _ => Some (zlen (upto0 r)) | None => None end) (Heap L f' c' e')) ->
            run (let! _ := free E (Some n) in ret (IDN2_OK, arr', match outlen with Some _ => Some (zlen (upto0 r)) | None => None end))
              (Heap ((n, r) :: L) f' (Datatypes.S c') (after_free E c' e')) Q).
          { intros arr' H. frees. apply run_ret. apply H; lia. }
          destruct arr as [x|]; [destruct outlen as [y|]|].
          -- apply run_bind, run_must; [apply safe_left, safe_left in S; exact S|apply nf_copy_to|].
             intros z C. rewrite C in *. cbn [bind] in *. apply run_ret. apply Fin. intros. apply K1; auto.
          -- cbn [bind] in *. apply run_ret. apply Fin. intros. apply K1; auto.
          -- cbn [bind] in *. apply run_ret. apply Fin. intros. apply K1; auto.
        * intros rc f' c' e' G1 G2 (N & V). frees. rewrite (proj2 (Z.eqb_neq rc IDN2_OK) N). cbn [negb]. apply run_ret.
          destruct V as [V|V]; [rewrite V in *; apply K1; auto; lia|]. apply K2; [lia|lia|]. apply (starved_widen E (Datatypes.S c) c'); auto.
  Qed.

  Lemma wp_8z8z : forall junk a s o flags L f c e Q, below L f -> reads a L s ->
    let m := let* r := unicode s in utf8_out r in
    safe m -> takes m o L f c Q -> run (m_to_unicode_8z8z E junk (Some a) o flags) (Heap L f c e) Q.
  Proof.
    intros junk a s o flags L f c e Q B R m S K. subst m. unfold m_to_unicode_8z8z.
    apply run_bind, (wp_8z4z _ s); [exact B|exact R|now apply safe_left in S|]. split; [|split].
    - discriminate.
    - intros r k n f' c' e' O G1 G2 G3 M. rewrite M in *. cbn [bind] in *. change (negb (IDN2_OK =? IDN2_OK)) with false. cbv iota. cbn [of_slot local].
      apply run_bind, run_ret. apply run_bind, (run_load _ _ _ _ _ r); [cbn [alive find_block]; now rewrite Nat.eqb_refl|].
      unfold utf8_out in *. apply run_bind, run_acquire.
      + intros F. frees. apply run_bind, run_or, run_ret. apply (takes_bad _ _ _ _ _ _ _ _ _ _ K); [lia|lia|].
        apply (failed_then E _ _ _ _ c'); auto. now left.
      + intros N. destruct (u32_to_u8 (upto0 r ++ [0])); [discriminate|].
        frees. apply run_bind, run_or, run_ret. apply (takes_bad _ _ _ _ _ _ _ _ _ _ K); [lia|lia|].
        apply refused_then; [now left|reflexivity|lia].
      + intros b N. destruct (u32_to_u8 (upto0 r ++ [0])) as [y|]; [|discriminate]. cbn [option_map] in N. injection N as <-.
        apply run_bind, run_free_second; [lia|]. apply (wp_pass_on _ _ _ _ _ _ _ _ (Ok (upto0 y))); [reflexivity| |lia].
        apply (takes_later _ _ _ f c); auto; lia.
    - intros rc f' c' e' G1 G2 V. rewrite (proj2 (Z.eqb_neq rc IDN2_OK) (proj1 V)). cbn [negb]. apply run_ret.
      apply (takes_bad _ _ _ _ _ _ _ _ _ _ K); auto. apply (bad_widen E _ _ _ _ _ _ _ _ _ V); auto. now intros ->.
  Qed.

  Lemma wp_8zlz : forall Lo junk a s o flags L f c e Q, below L f -> reads a L s ->
    let m := let* b := (let* r := unicode s in utf8_out r) in locale_out Lo b in
    safe m -> takes m o L f c Q -> run (m_to_unicode_8zlz E Lo junk (Some a) o flags) (Heap L f c e) Q.
  Proof.
    intros Lo junk a s o flags L f c e Q B R m S K. subst m. unfold m_to_unicode_8zlz.
    apply run_bind, (wp_8z8z _ _ s); [exact B|exact R|now apply safe_left in S|]. split; [|split].
    - discriminate.
    - intros r k n f' c' e' O G1 G2 G3 M. rewrite M in *. cbn [bind] in *. change (negb (IDN2_OK =? IDN2_OK)) with false. cbv iota. cbn [of_slot local].
      apply run_bind, run_ret.
      assert (NR : upto0 r = r).
      { destruct (unicode s) as [x|x| |]; cbn [bind] in M; try discriminate. unfold utf8_out in M.
        destruct (u32_to_u8 _) as [y|]; [|discriminate]. injection M as <-. apply upto0_twice. }
      apply run_bind, (run_cstr _ _ _ _ _ r); [exists r; cbn [find_block]; rewrite Nat.eqb_refl; auto|].
      unfold locale_out in *. apply run_bind, run_acquire.
      + intros F. apply run_bind, run_bind, run_or. frees. apply run_ret. frees. apply run_ret.
        apply (takes_bad _ _ _ _ _ _ _ _ _ _ K); [lia|lia|].
        apply (bad_starved E _ _ c' (Datatypes.S c')); [|lia|lia]. apply (starved_here E _ _ c'); [exact F|lia].
      + intros N. rewrite N in *. apply run_bind, run_bind, run_or. frees. apply run_ret. frees. apply run_ret.
        apply (takes_bad _ _ _ _ _ _ _ _ _ _ K); [lia|lia|]. apply bad_here. discriminate.
      + intros b N. rewrite N in *. apply run_bind. destruct K as (K1 & K2 & K3).
        unfold pass_on. change (IDN2_OK =? IDN2_OK) with true. cbv iota. destruct o as [j|].
        * apply run_ret. apply run_bind, run_free_second; [lia|]. apply run_ret. apply (K2 b j); auto; lia.
        * frees. apply run_ret. frees. apply run_ret. apply (K1 b); auto; lia.
    - intros rc f' c' e' G1 G2 V. rewrite (proj2 (Z.eqb_neq rc IDN2_OK) (proj1 V)). cbn [negb]. apply run_ret.
      apply (takes_bad _ _ _ _ _ _ _ _ _ _ K); auto. apply (bad_widen E _ _ _ _ _ _ _ _ _ V); auto. now intros ->.
  Qed.

  Lemma wp_lzlz : forall Lo junk a s o flags L f c e Q, below L f -> reads a L s ->
    (forall x b, from_locale Lo x = Some b -> ~ In 0 b) ->
    let m := match from_locale Lo s with
             | None => Fail IDN2_ICONV_FAIL
             | Some b => let* b := (let* r := unicode b in utf8_out r) in locale_out Lo b
             end in
    safe m -> takes m o L f c Q -> run (m_to_unicode_lzlz E Lo junk (Some a) o flags) (Heap L f c e) Q.
  Proof.
    intros Lo junk a s o flags L f c e Q B R NL m S K. subst m. unfold m_to_unicode_lzlz.
    apply run_bind, (run_cstr a L f c e s); [exact R|]. apply run_bind, run_acquire.
    - intros F. apply run_bind, run_or, run_ret. apply (takes_bad _ _ _ _ _ _ _ _ _ _ K); [lia|lia|now_failed].
    - intros N. rewrite N in *. apply run_bind, run_or, run_ret. apply (takes_bad _ _ _ _ _ _ _ _ _ _ K); [lia|lia|now_refused]. reflexivity.
    - intros b N. rewrite N in *. apply run_bind, (wp_8zlz _ _ _ b).
      + apply below_cons; [apply (below_mono L f); [exact B|lia]|lia].
      + exists b. cbn [find_block]. rewrite Nat.eqb_refl. split; [reflexivity|]. apply upto0_id. now apply (NL s).
      + exact S.
      + apply (takes_then_free _ _ _ _ _ f c); auto.
  Qed.

  (** ** lib/register.c *)
  Lemma wp_reg_ulabel : forall junk a u o flags L f c e Q, below L f -> reads a L u -> safe (reg_ulabel U u flags) ->
    takes (reg_ulabel U u flags) o L f c Q -> run (m_reg_ulabel E U junk a o flags) (Heap L f c e) Q.
  Proof.
    intros junk a u o flags L f c e Q B R S K. unfold m_reg_ulabel. unfold reg_ulabel in *.
    assert (A := reads_there a L u R).
    apply run_bind, (run_cstr a L f c e u); [exact R|]. destruct (ascii_p u).
    - destruct (LABEL_MAX <? zlen u).
      + apply run_ret. apply (takes_bad _ _ _ _ _ _ _ _ _ _ K); auto. apply bad_here; discriminate.
      + apply run_bind, run_touch; [exact A|]. now apply wp_hand_out.
    - apply run_bind, wp_u8_to_u32_nfc; [exact B|exact A| |].
      + intros l n f' c' e' G1 G2 G3 M. rewrite M in *. cbn [bind] in *. change (negb (IDN2_OK =? IDN2_OK)) with false. cbv iota. cbn [local].
        assert (A' : alive (Block n) ((n, l) :: L) l) by (cbn [alive find_block]; now rewrite Nat.eqb_refl).
        apply run_bind, run_ret. apply run_bind, (run_load _ _ _ _ _ l); [exact A'|].
        apply run_bind, wp_label_test.
        * apply below_cons; [apply (below_mono L f); [exact B|lia]|lia].
        * now exists l.
        * now apply safe_left in S.
        * intros f2 c2 e2 G4 G5 W. rewrite W in *. cbn [bind] in *. change (negb (IDN2_OK =? IDN2_OK)) with false. cbv iota.
          apply run_bind, run_touch; [now exists l|]. apply run_bind, run_try; [now apply safe_left in S| |].
          -- intros x P. rewrite P in *. cbn [bind] in *. frees. destruct (LABEL_MAX - 3 <=? zlen x); [contradiction|].
             apply wp_hand_out. apply (takes_later _ _ _ f c); auto; lia.
          -- intros rc P. rewrite P in *. frees. apply run_ret. apply (takes_bad _ _ _ _ _ _ _ _ _ _ K); [lia|lia|]. apply bad_here.
             now apply (nz_encode _ _ _ _ P).
        * intros rc f2 c2 e2 G4 G5 V. rewrite (proj2 (Z.eqb_neq rc IDN2_OK) (proj1 V)). cbn [negb]. frees. apply run_ret.
          apply (takes_bad _ _ _ _ _ _ _ _ _ _ K); [lia|lia|]. apply (bad_widen E _ _ _ _ _ _ _ _ _ V); auto. now intros ->.
      + intros rc f' c' e' G1 G2 V. rewrite (proj2 (Z.eqb_neq rc IDN2_OK) (proj1 V)). cbn [negb]. apply run_ret.
        apply (takes_bad _ _ _ _ _ _ _ _ _ _ K); auto. apply (bad_widen E _ _ _ _ _ _ _ _ _ V); auto. now intros ->.
  Qed.

  Lemma wp_reg_alabel : forall junk ua u aa a o L f c e Q, below L f -> reads aa L a ->
    match ua, u with Some x, Some s => reads x L s | None, None => True | _, _ => False end -> safe (reg_alabel U u a) ->
    takes (reg_alabel U u a) o L f c Q -> run (m_reg_alabel E U junk ua aa o) (Heap L f c e) Q.
  Proof.
    intros junk ua u aa a o L f c e Q B R RU S K. unfold m_reg_alabel. unfold reg_alabel in *.
    assert (A := reads_there aa L a R).
    apply run_bind, (run_cstr aa L f c e a); [exact R|].
    assert (Stop : forall rc, rc <> IDN2_OK -> takes (Fail rc) o L f c Q -> run (ret (rc, o)) (Heap L f c e) Q).
    { intros rc N K'. apply run_ret. apply (takes_bad _ _ _ _ _ _ _ _ _ _ K'); auto. now apply bad_here. }
    destruct (LABEL_MAX <? zlen a); [apply Stop; [discriminate|exact K]|].
    destruct (zlen a <=? 4); [apply Stop; [discriminate|exact K]|].
    destruct (negb (list_eqb (firstn 4 a) ace_prefix)); [apply Stop; [discriminate|exact K]|].
    destruct (negb (ascii_p a)); [apply Stop; [discriminate|exact K]|].
    apply run_bind, run_try; [now apply safe_left in S| |].
    2:{ intros rc D. rewrite D in *. apply Stop; [|exact K]. now apply (nz_decode _ _ _ _ D). }
    intros l D. rewrite D in *. cbn [bind] in *. destruct (u32_to_u8 l) as [b|]; cbn [conv bind] in *; [|apply Stop; [discriminate|exact K]].
    destruct (DOMAIN_MAX + 1 <=? zlen b); [contradiction|]. cbv zeta in *.
    assert (Rest : safe (let* tmp := reg_ulabel U (upto0 b) 0 in if list_eqb a tmp then Ok a else Fail IDN2_UALABEL_MISMATCH) ->
      takes (let* tmp := reg_ulabel U (upto0 b) 0 in if list_eqb a tmp then Ok a else Fail IDN2_UALABEL_MISMATCH) o L f c Q ->
      run (let! (rc, o0) := m_reg_ulabel E U junk (Caller (upto0 b)) (Some junk) 0 in
           if negb (rc =? IDN2_OK) then ret (rc, o)
           else let! t := local (of_slot o0) in let! tmp := load t in let! _ := touch aa in
                let! _ := free E (of_slot o0) in
                if list_eqb a tmp then let! _ := touch aa in hand_out E o a else ret (IDN2_UALABEL_MISMATCH, o)) (Heap L f c e) Q).
    { clear S K. intros S K. apply run_bind, (wp_reg_ulabel _ _ (upto0 b)); [exact B|reflexivity|now apply safe_left in S|].
      split; [|split].
      - discriminate.
      - intros r k n f' c' e' O G1 G2 G3 M. rewrite M in *. cbn [bind] in *. change (negb (IDN2_OK =? IDN2_OK)) with false. cbv iota. cbn [of_slot local].
        apply run_bind, run_ret. apply run_bind, (run_load _ _ _ _ _ r); [cbn [alive find_block]; now rewrite Nat.eqb_refl|].
        apply run_bind, run_touch; [apply (there_cons aa L f); auto|]. frees. destruct (list_eqb a r).
        + apply run_bind, run_touch; [exact A|]. apply wp_hand_out. apply (takes_later _ _ _ f c); auto; lia.
        + apply run_ret. apply (takes_bad _ _ _ _ _ _ _ _ _ _ K); [lia|lia|]. apply bad_here; discriminate.
      - intros rc f' c' e' G1 G2 V. rewrite (proj2 (Z.eqb_neq rc IDN2_OK) (proj1 V)). cbn [negb]. apply run_ret.
        apply (takes_bad _ _ _ _ _ _ _ _ _ _ K); auto. apply (bad_widen E _ _ _ _ _ _ _ _ _ V); auto. now intros ->. }
    apply run_bind. destruct ua as [x|]; destruct u as [s|]; try contradiction.
    - apply run_bind, (run_cstr x L f c e s); [exact RU|]. apply run_ret. destruct (list_eqb s (upto0 b)); cbn [negb bind] in *.
      + now apply Rest.
      + apply Stop; [discriminate|exact K].
    - apply run_ret. cbn [negb bind] in *. now apply Rest.
  Qed.
End Mem.
