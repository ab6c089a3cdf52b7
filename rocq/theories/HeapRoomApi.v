(** The public functions with enough memory. *)
From Verif Require Import Base Uenv Utf8 Bidi Context Idna Puny Lookup Api Register PunyBase SpecUtf8 Utf8Proofs SpecNfc SpecLookup LookupProofs LookupTr46 NonZero NoFail
  ApiProofs CostPuny CostLabel Heap SpecHeap SpecRoom HeapProofs HeapRun HeapRoom.

Section Room.
  Variable E : allocator.
  Variable U : uenv.
  Hypothesis K : nfc_ok U.
  Variable B : Z.
  Hypothesis R : roomy E B.
  Let E' := never E.

  Ltac frees := repeat (apply ag_bind; first [apply ag_free_top; intros ? | apply ag_free_null; intros ?]).
  Ltac oom := apply ag_bind, ag_or; let rc := fresh in let Y := fresh in intros rc Y; apply ag_ret;
    match goal with G : gives _ _ _ _ _ |- _ => apply (gives_bad _ _ _ _ _ _ _ _ _ G); [lia|destruct Y as [->| ->]; discriminate] end.

  Lemma ag_pass_on : forall n m r o L f c e Q, gives n o L f Q -> (f <= m)%nat -> (m < f)%nat \/ True -> zlen r <= n ->
    forall f', (m < f')%nat -> agree (pass_on E IDN2_OK o (Some m)) (pass_on E' IDN2_OK o (Some m)) (Heap ((m, r) :: L) f' c e) Q.
  Proof.
    intros n m r o L f c e Q (K1 & K2 & K3) F _ Zr f' F'. unfold pass_on. change (IDN2_OK =? IDN2_OK) with true. cbv iota.
    destruct o as [j|]; [apply ag_ret, (K2 r j); auto|]. frees. apply ag_ret, K1; auto. lia.
  Qed.
  Lemma ag_pass_bad : forall n rc p o L f c e Q, gives n o L f Q -> rc <> IDN2_OK ->
    forall f', (f <= f')%nat -> agree (pass_on E rc o p) (pass_on E' rc o p) (Heap L f' c e) Q.
  Proof.
    intros n rc p o L f c e Q G N f' F. unfold pass_on. rewrite (proj2 (Z.eqb_neq rc IDN2_OK) N). apply ag_ret.
    apply (gives_bad _ _ _ _ _ _ _ _ _ G); auto.
  Qed.
  (** A call with a block that is freed afterwards. *)
  Lemma gives_then_free : forall N o n x L f f0 (Q : Z * slot -> heap -> Prop), gives N o L f Q -> (f <= f0)%nat -> (n < f0)%nat ->
    gives N o ((n, x) :: L) f0 (fun p h' => agree (let '(rc, o') := p in let! _ := free E (Some n) in ret (rc, o'))
                                                  (let '(rc, o') := p in let! _ := free E' (Some n) in ret (rc, o')) h' Q).
  Proof.
    intros N o n x L f f0 Q (K1 & K2 & K3) F Fn. split; [|split].
    - intros f' c' e' O G. frees. apply ag_ret, K1; auto. lia.
    - intros r j m f' c' e' O G1 G2 Zr. apply ag_bind, ag_free_second; [lia|]. intros e1. apply ag_ret, (K2 r j); auto. lia.
    - intros rc f' c' e' G N'. frees. apply ag_ret, K3; auto. lia.
  Qed.
  Lemma gives_then_pass : forall N o junk n x L f f0 (Q : Z * slot -> heap -> Prop), gives N o L f Q -> (f <= f0)%nat -> (n < f0)%nat ->
    gives N (Some junk) ((n, x) :: L) f0 (fun p h' => agree (let '(rc, o') := p in let! _ := free E (Some n) in pass_on E rc o (of_slot o'))
                                                  (let '(rc, o') := p in let! _ := free E' (Some n) in pass_on E' rc o (of_slot o')) h' Q).
  Proof.
    intros N o junk n x L f f0 Q G F Fn. split; [|split].
    - discriminate.
    - intros r j m f' c' e' O G1 G2 Zr. apply ag_bind, ag_free_second; [lia|]. intros e1. cbn [of_slot]. apply (ag_pass_on N m r o L f); auto; lia.
    - intros rc f' c' e' G1 N'. frees. apply (ag_pass_bad N rc _ o L f); auto. lia.
  Qed.
  Lemma reads_top : forall n x L s, reads (Block n) ((n, x) :: L) s -> zlen s <= zlen x.
  Proof. intros n x L s (l & A & <-). cbn [find_block] in A. rewrite Nat.eqb_refl in A. injection A as <-. apply upto0_zlen. Qed.

  (** ** ToASCII *)
  Lemma ag_lookup_ul : forall Lo k junk a n o flags L f c e Q, grows Lo k -> 0 <= k -> (forall s, reads a L s -> zlen s <= n) -> k * n < two64 ->
    cells L + k * n + lookup_needs flags (k * n) <= B -> gives 255 o L f Q ->
    agree (m_lookup_ul E U Lo junk (Some a) o flags) (m_lookup_ul E' U Lo junk (Some a) o flags) (Heap L f c e) Q.
  Proof.
    intros Lo k junk a n o flags L f c e Q (Gr & _) Kp An Bn H G. unfold m_lookup_ul.
    apply ag_bind, ag_cstr. intros s As. cbn [live] in As. apply An in As.
    assert (Ln : 0 <= lookup_needs flags (k * n)) by (unfold lookup_needs; destruct (has _ _); lia). pose proof (zlen_nonneg _ s).
    assert (Rq : request (from_locale Lo s) <= k * n).
    { destruct (from_locale Lo s) as [b|] eqn:X; cbn [request]; [apply Gr in X|]; nia. }
    apply ag_bind, (ag_acquire E B R); [lia|intros _; oom|]. intros b X. apply req_some in X.
    assert (Hx : has (Z.lor flags IDN2_NFC_INPUT) IDN2_NO_TR46 = has flags IDN2_NO_TR46).
    { unfold has. rewrite Z.land_lor_distr_l. change (Z.land IDN2_NFC_INPUT IDN2_NO_TR46) with 0. now rewrite Z.lor_0_r. }
    apply ag_bind, (ag_lookup_u8 E U K B R _ _ (k * n)).
    - intros t Rt. apply reads_top in Rt. lia.
    - exact Bn.
    - unfold lookup_needs in *. rewrite Hx. cbn [cells]. lia.
    - apply (gives_then_free 255 o f b L f); auto.
  Qed.

  Lemma ag_4z : forall junk a n o flags L f c e Q, (forall l, alive a L l -> zlen l <= n) -> 4 * n + 4 < two64 ->
    cells L + 4 * n + 4 + lookup_needs flags (4 * n + 4) <= B -> gives 255 o L f Q ->
    agree (m_to_ascii_4z E U junk (Some a) o flags) (m_to_ascii_4z E' U junk (Some a) o flags) (Heap L f c e) Q.
  Proof.
    intros junk a n o flags L f c e Q An Bn H G. unfold m_to_ascii_4z.
    apply ag_bind, ag_load. intros l Al. cbn [live] in Al. apply An in Al.
    assert (Ln : 0 <= lookup_needs flags (4 * n + 4)) by (unfold lookup_needs; destruct (has _ _); lia).
    pose proof (u32_req (upto0 l ++ [0])) as UR. rewrite zlen_app in UR. change (zlen [0]) with 1 in UR. pose proof (upto0_zlen l).
    apply ag_bind, (ag_acquire E B R); [lia|intros _; oom|]. intros b X. apply req_some in X.
    apply ag_bind, (ag_lookup_u8 E U K B R _ _ (4 * n + 4)).
    - intros t Rt. apply reads_top in Rt. lia.
    - exact Bn.
    - unfold lookup_needs in *. cbn [cells]. destruct (has _ _); lia.
    - apply (gives_then_free 255 o f b L f); auto.
  Qed.

  Lemma ag_4i2 : forall junk a n o flags L f c e Q, (forall l, alive a L l -> zlen l <= n) -> 4 * n + 4 < two64 ->
    cells L + 5 * n + 5 + lookup_needs flags (4 * n + 4) <= B -> gives 255 o L f Q ->
    agree (m_to_ascii_4i2 E U junk (Some a) o flags) (m_to_ascii_4i2 E' U junk (Some a) o flags) (Heap L f c e) Q.
  Proof.
    intros junk a n o flags L f c e Q An Bn H G. unfold m_to_ascii_4i2.
    apply ag_bind, ag_load. intros l Al. cbn [live] in Al. apply An in Al. pose proof (zlen_nonneg _ l).
    assert (Ln : 0 <= lookup_needs flags (4 * n + 4)) by (unfold lookup_needs; destruct (has _ _); lia).
    apply ag_bind, (ag_acquire E B R); [cbn [request]; rewrite blank_len; lia|discriminate|]. intros l0 X. injection X as <-.
    apply ag_bind, ag_touch. apply ag_bind, ag_fill_top. apply ag_bind, ag_load. intros l1 A1. apply top_alive in A1. subst l1.
    pose proof (u32_req (l ++ [0])) as UR. assert (Zl : zlen (l ++ [0]) = zlen l + 1) by (rewrite zlen_app; reflexivity). rewrite Zl in UR.
    apply ag_bind, (ag_acquire E B R); [cbn [cells]; rewrite Zl; lia|intros _; frees; oom|]. intros b X. apply req_some in X.
    apply ag_bind, ag_free_second; [lia|]. intros e1.
    apply ag_bind, (ag_lookup_u8 E U K B R _ _ (4 * n + 4)).
    - intros t Rt. apply reads_top in Rt. lia.
    - exact Bn.
    - unfold lookup_needs in *. cbn [cells]. destruct (has _ _); lia.
    - apply (gives_then_pass 255 o junk (S f) b L f); auto; lia.
  Qed.

  Lemma ag_4i : forall junk a n o flags L f c e (Q : Z * option (list Z) -> heap -> Prop), (forall l, alive a L l -> zlen l <= n) -> 4 * n + 4 < two64 ->
    cells L + 5 * n + 5 + lookup_needs flags (4 * n + 4) <= B -> (forall r h', Q r h') ->
    agree (m_to_ascii_4i E U junk (Some a) o flags) (m_to_ascii_4i E' U junk (Some a) o flags) (Heap L f c e) Q.
  Proof.
    intros junk a n o flags L f c e Q An Bn H G. unfold m_to_ascii_4i.
    apply ag_bind, (ag_4i2 _ _ n); auto. split; [|split].
    - discriminate.
    - intros r j m f' c' e' O F1 F2 Zr. change (IDN2_OK =? IDN2_OK) with true. cbv iota. cbn [of_slot]. apply ag_bind, ag_local.
      apply ag_bind, ag_load. intros r' A. apply top_alive in A. subst r'. cbv zeta. apply ag_bind.
      destruct (63 <? zlen (upto0 r)); [apply ag_ret; frees; now apply ag_ret|]. destruct o as [b|]; [|apply ag_ret; frees; now apply ag_ret].
      apply ag_bind, ag_must. intros b' _. apply ag_ret. frees. now apply ag_ret.
    - intros rc f' c' e' F N. rewrite (proj2 (Z.eqb_neq rc IDN2_OK) N). now apply ag_ret.
  Qed.

  (** ** ToUnicode *)
  Lemma ag_unicode_labels : forall a m ls acc L f c e (Q : Z * list Z -> heap -> Prop), zlen acc <= 255 ->
    Forall (fun s => zlen s <= m) ls -> cells L + m <= B ->
    (forall rc r f' c' e', (f <= f')%nat -> zlen r <= 255 -> Q (rc, r) (Heap L f' c' e')) ->
    agree (m_unicode_labels E a ls acc) (m_unicode_labels E' a ls acc) (Heap L f c e) Q.
  Proof.
    intros a m ls. induction ls as [|s rest IH]; intros acc L f c e Q Za FA H G.
    - cbn [m_unicode_labels]. apply ag_bind, ag_touch. apply ag_ret, G; auto.
    - cbn [m_unicode_labels]. cbv zeta. apply Forall_cons_iff in FA. destruct FA as (Fs & FA). apply ag_bind, ag_touch.
      assert (Nil : zlen (@nil Z) <= 255) by (change (zlen (@nil Z)) with 0; lia).
      assert (Visit : (s = [] /\ rest = []) \/ ((forall T (u v : T), match s, rest with [], [] => u | _, _ => v end = v))).
      { destruct s; [|now right]. destruct rest; [now left|now right]. }
      destruct Visit as [(-> & ->)|V]; [apply ag_ret, G; auto|]. rewrite !V. clear V.
      set (dot := match rest with [] => 0 | _ => 1 end).
      assert (Next : forall acc' f' c' e', zlen acc' + dot <= 255 -> (f <= f')%nat ->
        agree (match rest with [] => ret (IDN2_OK, acc') | _ => let! acc2 := must (put (DOMAIN_MAX + 1) acc' 46) in m_unicode_labels E a rest acc2 end)
              (match rest with [] => ret (IDN2_OK, acc') | _ => let! acc2 := must (put (DOMAIN_MAX + 1) acc' 46) in m_unicode_labels E' a rest acc2 end)
              (Heap L f' c' e') Q).
      { intros acc' f' c' e' Z1 F. subst dot. destruct rest as [|s2 rest]; [apply ag_ret, G; auto; lia|].
        apply ag_bind, ag_must. intros acc2 P. apply IH; auto.
        - unfold put in P. destruct (zlen acc' <? _) in P; [|discriminate]. injection P as <-. rewrite zlen_app. change (zlen [46]) with 1. lia.
        - intros. apply G; auto. lia. }
      destruct (ace_anycase s).
      + apply ag_bind, ag_try; [|intros; apply ag_ret, G; auto]. intros l D.
        destruct (DOMAIN_MAX <? zlen acc + zlen l + dot) eqn:DM; [apply ag_ret, G; auto|]. apply Z.ltb_ge in DM. unfold DOMAIN_MAX in DM.
        destruct (DOMAIN_MAX + 1 <? zlen acc + zlen l); [apply ag_undef|]. apply Next; [rewrite zlen_app; lia|lia].
      + pose proof (u8_req s) as UR. apply ag_bind, (ag_acquire E B R); [lia| |].
        * intros _. apply ag_bind, ag_or. intros. apply ag_ret, G; auto.
        * intros l X. apply ag_bind, ag_load. intros l' A. apply top_alive in A. subst l'.
          destruct (LABEL_MAX <? zlen l); [frees; apply ag_ret, G; auto; lia|].
          destruct (DOMAIN_MAX <? zlen acc + zlen l + dot) eqn:DM; [frees; apply ag_ret, G; auto; lia|]. apply Z.ltb_ge in DM. unfold DOMAIN_MAX in DM.
          destruct (DOMAIN_MAX + 1 <? zlen acc + zlen l); [apply ag_undef|]. frees. apply Next; [rewrite zlen_app; lia|lia].
  Qed.

  Lemma ag_8z4z : forall a n o flags L f c e Q, (forall s, reads a L s -> zlen s <= n) -> cells L + Z.max n 255 <= B -> gives 255 o L f Q ->
    agree (m_to_unicode_8z4z E (Some a) o flags) (m_to_unicode_8z4z E' (Some a) o flags) (Heap L f c e) Q.
  Proof.
    intros a n o flags L f c e Q An H G. unfold m_to_unicode_8z4z. apply ag_bind, ag_cstr. intros s As. cbn [live] in As. apply An in As.
    apply ag_bind, (ag_unicode_labels _ n).
    - change (zlen (@nil Z)) with 0. lia.
    - apply Forall_forall. intros z Iz. apply split_zlen in Iz. lia.
    - lia.
    - intros rc r f' c' e' F Zr. destruct (rc =? IDN2_OK) eqn:RC; cbn [negb].
      + destruct G as (K1 & K2 & K3). destruct o as [j|]; [|apply ag_ret, K1; auto].
        destruct (DOMAIN_MAX <? zlen r); [apply ag_undef|]. apply ag_bind, (ag_acquire E B R); [cbn [request]; lia|discriminate|].
        intros l X. injection X as <-. apply ag_ret, (K2 r j); auto; lia.
      + apply Z.eqb_neq in RC. apply ag_ret. apply (gives_bad _ _ _ _ _ _ _ _ _ G); auto.
  Qed.

  Lemma ag_4z4z : forall junk a n o flags L f c e Q, (forall l, alive a L l -> zlen l <= n) -> 0 <= n -> cells L + 8 * n + 263 <= B -> gives 255 o L f Q ->
    agree (m_to_unicode_4z4z E junk (Some a) o flags) (m_to_unicode_4z4z E' junk (Some a) o flags) (Heap L f c e) Q.
  Proof.
    intros junk a n o flags L f c e Q An N0 H G. unfold m_to_unicode_4z4z.
    apply ag_bind, ag_load. intros l Al. cbn [live] in Al. apply An in Al.
    pose proof (u32_req (upto0 l ++ [0])) as UR. rewrite zlen_app in UR. change (zlen [0]) with 1 in UR. pose proof (upto0_zlen l).
    apply ag_bind, (ag_acquire E B R); [lia|intros _; oom|]. intros b X. apply req_some in X.
    apply ag_bind, (ag_8z4z _ (4 * n + 4)).
    - intros t Rt. apply reads_top in Rt. lia.
    - cbn [cells]. lia.
    - apply (gives_then_pass 255 o junk f b L f); auto.
  Qed.

  Lemma ag_44i : forall junk a n arr outlen flags L f c e (Q : Z * option (list Z) * option Z -> heap -> Prop), (forall l, alive a L l -> zlen l <= n) -> 0 <= n ->
    cells L + 9 * n + 272 <= B -> (forall r h', Q r h') ->
    agree (m_to_unicode_44i E junk (Some a) arr outlen flags) (m_to_unicode_44i E' junk (Some a) arr outlen flags) (Heap L f c e) Q.
  Proof.
    intros junk a n arr outlen flags L f c e Q An N0 H G. unfold m_to_unicode_44i.
    apply ag_bind, ag_load. intros l Al. cbn [live] in Al. apply An in Al. pose proof (zlen_nonneg _ l).
    apply ag_bind, (ag_acquire E B R); [cbn [request]; rewrite blank_len; lia|discriminate|]. intros l0 X. injection X as <-.
    apply ag_bind, ag_touch. apply ag_bind, ag_fill_top. assert (Zl : zlen (l ++ [0]) = zlen l + 1) by (rewrite zlen_app; reflexivity).
    apply ag_bind, (ag_4z4z _ _ (n + 1)).
    - intros t Rt. apply top_alive in Rt. subst t. lia.
    - lia.
    - cbn [cells]. lia.
    - split; [|split].
      + discriminate.
      + intros r j m f' c' e' O F1 F2 Zr. apply ag_bind, ag_free_second; [lia|]. intros e1. change (negb (IDN2_OK =? IDN2_OK)) with false. cbv iota.
        cbn [of_slot]. apply ag_bind, ag_local. apply ag_bind, ag_load. intros r' A. apply top_alive in A. subst r'. cbv zeta. apply ag_bind.
        destruct arr as [b|]; [destruct outlen as [k|]|]; try (apply ag_ret; frees; now apply ag_ret).
        apply ag_bind, ag_must. intros b' _. apply ag_ret. frees. now apply ag_ret.
      + intros rc f' c' e' F N. frees. rewrite (proj2 (Z.eqb_neq rc IDN2_OK) N). cbn [negb]. now apply ag_ret.
  Qed.

  Lemma ag_8z8z : forall junk a n o flags L f c e Q, (forall s, reads a L s -> zlen s <= n) -> 0 <= n -> cells L + Z.max n 1279 <= B -> gives 1024 o L f Q ->
    agree (m_to_unicode_8z8z E junk (Some a) o flags) (m_to_unicode_8z8z E' junk (Some a) o flags) (Heap L f c e) Q.
  Proof.
    intros junk a n o flags L f c e Q An N0 H G. unfold m_to_unicode_8z8z. apply ag_bind, (ag_8z4z _ n); [exact An|lia|]. split; [|split].
    - discriminate.
    - intros r j m f' c' e' O F1 F2 Zr. change (negb (IDN2_OK =? IDN2_OK)) with false. cbv iota. cbn [of_slot]. apply ag_bind, ag_local.
      apply ag_bind, ag_load. intros r' A. apply top_alive in A. subst r'.
      pose proof (u32_req (upto0 r ++ [0])) as UR. rewrite zlen_app in UR. change (zlen [0]) with 1 in UR. pose proof (upto0_zlen r).
      assert (RQ : request (option_map upto0 (u32_to_u8 (upto0 r ++ [0]))) <= 1024).
      { destruct (u32_to_u8 _) as [b|]; cbn [request option_map] in *; [pose proof (upto0_zlen b)|]; lia. }
      apply ag_bind, (ag_acquire E B R); [cbn [cells]; lia|intros _; frees; oom|]. intros b X. apply req_some in X.
      apply ag_bind, ag_free_second; [lia|]. intros e1. apply (ag_pass_on 1024 f' b o L f); auto; lia.
    - intros rc f' c' e' F N. rewrite (proj2 (Z.eqb_neq rc IDN2_OK) N). cbn [negb]. apply ag_ret. apply (gives_bad _ _ _ _ _ _ _ _ _ G); auto.
  Qed.

  Lemma ag_8zlz : forall Lo k junk a n o flags L f c e Q, grows Lo k -> 0 <= k -> (forall s, reads a L s -> zlen s <= n) -> 0 <= n ->
    cells L + Z.max n (1279 + 1024 * k) <= B -> gives (1024 * k) o L f Q ->
    agree (m_to_unicode_8zlz E Lo junk (Some a) o flags) (m_to_unicode_8zlz E' Lo junk (Some a) o flags) (Heap L f c e) Q.
  Proof.
    intros Lo k junk a n o flags L f c e Q (_ & Gr) Kp An N0 H G. unfold m_to_unicode_8zlz. apply ag_bind, (ag_8z8z _ _ n); [exact An|exact N0|lia|]. split; [|split].
    - discriminate.
    - intros r j m f' c' e' O F1 F2 Zr. change (negb (IDN2_OK =? IDN2_OK)) with false. cbv iota. cbn [of_slot]. apply ag_bind, ag_local.
      apply ag_bind, ag_cstr. intros s As. cbn [live] in As. apply reads_top in As. pose proof (zlen_nonneg _ s).
      assert (Rq : request (to_locale Lo s) <= 1024 * k).
      { destruct (to_locale Lo s) as [b|] eqn:X; cbn [request]; [apply Gr in X|]; nia. }
      apply ag_bind, (ag_acquire E B R); [cbn [cells]; lia| |].
      + intros _. apply ag_bind. apply ag_bind, ag_or. intros rc Y. apply ag_bind, ag_free_null. intros e1. apply ag_ret. frees. apply ag_ret.
        apply (gives_bad _ _ _ _ _ _ _ _ _ G); [lia|destruct Y as [->| ->]; discriminate].
      + intros b X. apply req_some in X. apply ag_bind. destruct G as (K1 & K2 & K3). unfold pass_on. change (IDN2_OK =? IDN2_OK) with true. cbv iota.
        destruct o as [i|].
        * apply ag_ret. apply ag_bind, ag_free_second; [lia|]. intros e1. apply ag_ret, (K2 b i); auto; lia.
        * frees. apply ag_ret. frees. apply ag_ret, K1; auto. lia.
    - intros rc f' c' e' F N. rewrite (proj2 (Z.eqb_neq rc IDN2_OK) N). cbn [negb]. apply ag_ret. apply (gives_bad _ _ _ _ _ _ _ _ _ G); auto.
  Qed.

  Lemma ag_lzlz : forall Lo k junk a n o flags L f c e Q, grows Lo k -> 0 <= k -> (forall s, reads a L s -> zlen s <= n) -> 0 <= n ->
    cells L + 2 * (k * n) + (1279 + 1024 * k) <= B -> gives (1024 * k) o L f Q ->
    agree (m_to_unicode_lzlz E Lo junk (Some a) o flags) (m_to_unicode_lzlz E' Lo junk (Some a) o flags) (Heap L f c e) Q.
  Proof.
    intros Lo k junk a n o flags L f c e Q Gr Kp An N0 H G. unfold m_to_unicode_lzlz.
    apply ag_bind, ag_cstr. intros s As. cbn [live] in As. apply An in As. pose proof (zlen_nonneg _ s).
    assert (Rq : request (from_locale Lo s) <= k * n).
    { destruct (from_locale Lo s) as [b|] eqn:X; cbn [request]; [apply (proj1 Gr) in X|]; nia. }
    assert (0 <= k * n) by nia.
    apply ag_bind, (ag_acquire E B R); [lia|intros _; oom|]. intros b X. apply req_some in X.
    apply ag_bind, (ag_8zlz Lo k _ _ (k * n)); auto.
    - intros t Rt. apply reads_top in Rt. lia.
    - cbn [cells]. lia.
    - apply (gives_then_free _ o f b L f); auto.
  Qed.

  (** ** Registration *)
  Lemma ag_reg_ulabel : forall junk a n o flags L f c e Q, (forall s, reads a L s -> zlen s <= n) -> 0 <= n -> cells L + Z.max (20 * n) 63 <= B -> gives 63 o L f Q ->
    agree (m_reg_ulabel E U junk a o flags) (m_reg_ulabel E' U junk a o flags) (Heap L f c e) Q.
  Proof.
    intros junk a n o flags L f c e Q An N0 H G. unfold m_reg_ulabel. apply ag_bind, ag_cstr. intros u Au. cbn [live] in Au. apply An in Au.
    assert (Give : forall (r : list Z) f', zlen r <= 63 -> (f <= f')%nat -> gives (zlen r) o L f' Q).
    { intros r f' Zr F. destruct G as (K1 & K2 & K3). split; [|split]; intros; [apply K1|apply (K2 r0 j)|apply K3]; auto; lia. }
    destruct (ascii_p u).
    - destruct (LABEL_MAX <? zlen u) eqn:Z1; [apply ag_ret, (gives_bad _ _ _ _ _ _ _ _ _ G); [lia|discriminate]|].
      apply Z.ltb_ge in Z1. unfold LABEL_MAX in Z1. apply ag_bind, ag_touch. apply (ag_hand_out E B R); [lia|]. now apply Give.
    - apply ag_bind, (ag_u8_to_u32_nfc E U K B R); [lia| |].
      + intros l m f' c' e' F1 F2 Zl. change (negb (IDN2_OK =? IDN2_OK)) with false. cbv iota. apply ag_bind, ag_local.
        apply ag_bind, ag_load. intros l' A. apply top_alive in A. subst l'.
        apply ag_bind, (ag_label_test E U K B R); [cbn [cells]; lia|]. intros rc f2 c2 e2 F3.
        destruct (rc =? IDN2_OK) eqn:RC; cbn [negb].
        * apply ag_bind, ag_touch. apply ag_bind, ag_try.
          -- intros d D. frees. destruct (LABEL_MAX - 3 <=? zlen d) eqn:Z2; [apply ag_undef|]. apply Z.leb_gt in Z2. unfold LABEL_MAX in Z2.
             assert (Zd : zlen (upto0 (ace_prefix ++ d)) <= 63).
             { pose proof (upto0_zlen (ace_prefix ++ d)) as X. rewrite zlen_app in X. change (zlen ace_prefix) with 4 in X. lia. }
             apply (ag_hand_out E B R); [lia|]. apply Give; [exact Zd|lia].
          -- intros rc' D. frees. apply ag_ret, (gives_bad _ _ _ _ _ _ _ _ _ G); [lia|]. now apply (nz_encode _ _ _ _ D).
        * apply Z.eqb_neq in RC. frees. apply ag_ret, (gives_bad _ _ _ _ _ _ _ _ _ G); [lia|exact RC].
      + intros rc f' c' e' F N. rewrite (proj2 (Z.eqb_neq rc IDN2_OK) N). cbn [negb]. apply ag_ret, (gives_bad _ _ _ _ _ _ _ _ _ G); [lia|exact N].
  Qed.

  Lemma ag_reg_alabel : forall junk u aa o L f c e Q, cells L + 5100 <= B -> gives 63 o L f Q ->
    agree (m_reg_alabel E U junk u aa o) (m_reg_alabel E' U junk u aa o) (Heap L f c e) Q.
  Proof.
    intros junk u aa o L f c e Q H G. unfold m_reg_alabel. apply ag_bind, ag_cstr. intros a _.
    assert (Bad : forall rc f' c' e', rc <> IDN2_OK -> (f <= f')%nat -> agree (ret (rc, o)) (ret (rc, o)) (Heap L f' c' e') Q).
    { intros rc f' c' e' N F. apply ag_ret, (gives_bad _ _ _ _ _ _ _ _ _ G); auto. }
    destruct (LABEL_MAX <? zlen a) eqn:Z1; [apply Bad; [discriminate|lia]|]. apply Z.ltb_ge in Z1. unfold LABEL_MAX in Z1.
    destruct (zlen a <=? 4); [apply Bad; [discriminate|lia]|]. destruct (negb (list_eqb _ _)); [apply Bad; [discriminate|lia]|].
    destruct (negb (ascii_p a)); [apply Bad; [discriminate|lia]|].
    apply ag_bind, ag_try; [|intros rc D; apply Bad; [now apply (nz_decode _ _ _ _ D)|lia]]. intros l D.
    destruct (u32_to_u8 l) as [b|]; [|apply Bad; [discriminate|lia]].
    destruct (DOMAIN_MAX + 1 <=? zlen b) eqn:Z2; [apply ag_undef|]. apply Z.leb_gt in Z2. unfold DOMAIN_MAX in Z2. cbv zeta.
    apply ag_bind.
    assert (Go : forall same, agree
      (if negb same then ret (IDN2_UALABEL_MISMATCH, o) else
       let! (rc, o0) := m_reg_ulabel E U junk (Caller (upto0 b)) (Some junk) 0 in
       if negb (rc =? IDN2_OK) then ret (rc, o)
       else let! t := local (of_slot o0) in let! tmp := load t in let! _ := touch aa in
            let! _ := free E (of_slot o0) in
            if list_eqb a tmp then let! _ := touch aa in hand_out E o a else ret (IDN2_UALABEL_MISMATCH, o))
      (if negb same then ret (IDN2_UALABEL_MISMATCH, o) else
       let! (rc, o0) := m_reg_ulabel E' U junk (Caller (upto0 b)) (Some junk) 0 in
       if negb (rc =? IDN2_OK) then ret (rc, o)
       else let! t := local (of_slot o0) in let! tmp := load t in let! _ := touch aa in
            let! _ := free E' (of_slot o0) in
            if list_eqb a tmp then let! _ := touch aa in hand_out E' o a else ret (IDN2_UALABEL_MISMATCH, o)) (Heap L f c e) Q).
    { intros [|]; cbn [negb]; [|apply Bad; [discriminate|lia]].
      apply ag_bind, (ag_reg_ulabel _ _ 255).
      - intros s As. cbn in As. subst s. pose proof (upto0_zlen b). lia.
      - lia.
      - lia.
      - split; [|split].
        + discriminate.
        + intros r j m f' c' e' O F1 F2 Zr. change (negb (IDN2_OK =? IDN2_OK)) with false. cbv iota. cbn [of_slot]. apply ag_bind, ag_local.
          apply ag_bind, ag_load. intros r' A. apply top_alive in A. subst r'. apply ag_bind, ag_touch. frees.
          destruct (list_eqb a r); [|apply Bad; [discriminate|lia]]. apply ag_bind, ag_touch. apply (ag_hand_out E B R); [lia|].
          destruct G as (K1 & K2 & K3). split; [|split]; intros; [apply K1|apply (K2 r0 j0)|apply K3]; auto; lia.
        + intros rc f' c' e' F N. rewrite (proj2 (Z.eqb_neq rc IDN2_OK) N). cbn [negb]. apply Bad; auto. }
    destruct u as [ua|]; [|apply ag_ret; apply Go]. apply ag_bind, ag_cstr. intros s _. apply ag_ret. apply Go.
  Qed.

  Lemma ag_register_u8 : forall junk u aa n o flags L f c e Q, (forall a s, u = Some a -> reads a L s -> zlen s <= n) -> 0 <= n ->
    cells L + Z.max (20 * n) 5100 <= B -> gives 63 o L f Q -> (forall f' c' e', (f <= f')%nat -> Q (IDN2_OK, put_slot o None) (Heap L f' c' e')) ->
    agree (m_register_u8 E U junk u aa o flags) (m_register_u8 E' U junk u aa o flags) (Heap L f c e) Q.
  Proof.
    intros junk u aa n o flags L f c e Q An N0 H G GN. unfold m_register_u8. destruct aa as [aa|].
    - apply ag_reg_alabel; [lia|exact G].
    - destruct u as [u|]; [|apply ag_ret; auto]. apply (ag_reg_ulabel _ _ n); [intros s; now apply An|exact N0|lia|exact G].
  Qed.

  Lemma ag_register_ul : forall Lo k junk u aa n o flags L f c e Q, grows Lo k -> 0 <= k -> (forall a s, u = Some a -> reads a L s -> zlen s <= n) -> 0 <= n ->
    cells L + k * n + Z.max (20 * (k * n)) 5100 <= B -> gives 63 o L f Q -> (forall f' c' e', (f <= f')%nat -> Q (IDN2_OK, put_slot o None) (Heap L f' c' e')) ->
    agree (m_register_ul E U Lo junk u aa o flags) (m_register_ul E' U Lo junk u aa o flags) (Heap L f c e) Q.
  Proof.
    intros Lo k junk u aa n o flags L f c e Q (Gr & _) Kp An N0 H G GN. unfold m_register_ul. assert (0 <= k * n) by nia. destruct u as [u|].
    - apply ag_bind, ag_cstr. intros s As. cbn [live] in As. apply (An u s eq_refl) in As. pose proof (zlen_nonneg _ s).
      assert (Rq : request (from_locale Lo s) <= k * n).
      { destruct (from_locale Lo s) as [b|] eqn:X; cbn [request]; [apply Gr in X|]; nia. }
      apply ag_bind, (ag_acquire E B R); [lia|intros _; oom|]. intros b X. apply req_some in X.
      apply ag_bind, (ag_register_u8 _ _ _ (k * n)).
      + intros a t Ea Rt. injection Ea as <-. apply reads_top in Rt. lia.
      + lia.
      + cbn [cells]. lia.
      + apply (gives_then_free 63 o f b L f); auto.
      + intros f' c' e' F. frees. apply ag_ret. apply GN. lia.
    - apply ag_bind, (ag_register_u8 _ _ _ 0); [discriminate|lia|lia| |].
      + destruct G as (K1 & K2 & K3). split; [|split].
        * intros. frees. apply ag_ret, K1; auto.
        * intros. apply ag_bind, ag_free_null. intros. apply ag_ret, (K2 r j); auto.
        * intros. frees. apply ag_ret, K3; auto.
      + intros. frees. apply ag_ret, GN. lia.
  Qed.
End Room.
