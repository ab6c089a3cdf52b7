(** The claims about memory, from the triples of [HeapApi]. *)
From Verif Require Import Base Uenv Utf8 Bidi Context Idna Puny Lookup Api Register PunyBase SpecUtf8 Utf8Proofs SpecNfc SpecLookup Cli SpecCli LookupProofs LookupTr46 NonZero NoFail
  ApiProofs RegisterProofs RegisterTop Heap SpecHeap HeapProofs HeapRun HeapApi.

Lemma below_unused : forall L f c e n, below L f -> (f <= n)%nat -> unused (Heap L f c e) n.
Proof. intros L f c e n B G l I. cbn [live] in I. apply B in I. lia. Qed.
Lemma shown_live : forall L f c e f' c' e' o, shown (Heap L f c e) o = shown (Heap L f' c' e') o.
Proof. intros L f c e f' c' e' [[n|]|]; reflexivity. Qed.
Lemma shown_top : forall n r L f c e, shown (Heap ((n, r) :: L) f c e) (Some (Some n)) = Some (Some r).
Proof. intros. unfold shown. cbn [live List.find fst snd]. now rewrite Nat.eqb_refl. Qed.
Lemma shown_none : forall h (o : slot), o = None \/ exists p, shown h o = Some p.
Proof. intros h [[n|]|]; [right|right|now left]; cbn [shown]; eauto. Qed.

Section Top.
  Variable E : allocator.

  (** A function in the shape of the triples. *)
  Definition does (F : slot -> M (Z * slot)) (m : out (list Z)) : Prop :=
    safe m /\ forall o L f c e Q, below L f -> takes E m o L f c Q -> run (F o) (Heap L f c e) Q.

  Lemma starved_honest : forall c c' rc, keeps_errno E -> starved E c c' rc -> rc = IDN2_MALLOC /\ exists n, (c <= n < c')%nat /\ denies E n.
  Proof.
    intros c c' rc K [(n & G & F & R)|(n & G & F & R)]; [eauto|]. now rewrite K in F.
  Qed.

  Lemma does_frugal : forall F m P, keeps_errno E -> does F m -> (forall c, P c = deliver c m) -> frugal E F P.
  Proof.
    intros F m P K (S & D) HP [L f c e] o B. unfold heap_ok in B. cbn [live fresh] in B.
    specialize (D o L f c e (fun p h' => heap_ok h' /\ ending E P (Heap L f c e) o (fst p) (snd p) h') B).
    assert (T : takes E m o L f c (fun p h' => heap_ok h' /\ ending E P (Heap L f c e) o (fst p) (snd p) h')).
    { split; [|split].
      - intros r f' c' e' -> G1 G2 M. split; [apply (below_mono L f); auto|]. apply nothing_to_hand_out; [|now left|reflexivity|now intros []].
        rewrite HP, M. reflexivity.
      - intros r j n f' c' e' -> G1 G2 G3 M. split; [apply below_cons; [apply (below_mono L f); [exact B|cbn [fresh]; lia]|exact G2]|].
        apply (handed_out _ _ _ _ n r); [discriminate| | |reflexivity].
        + rewrite HP, M. reflexivity.
        + now apply below_unused.
      - intros rc f' c' e' G1 G2 (N & [V|V]); (split; [apply (below_mono L f); auto|]).
        + apply nothing_to_hand_out; [|now left|reflexivity|].
          * rewrite HP, V. reflexivity.
          * intros _ r. rewrite HP, V. cbn [deliver]. congruence.
        + apply starved_honest in V; auto. destruct V as (-> & V). apply out_of_memory; auto. }
    specialize (D T). unfold run in D. destruct (F o _) as [[[rc o'] h']|x| |]; try contradiction. exists rc, o', h'. auto.
  Qed.

  Lemma does_tidy : forall F m, does F m -> tidy F.
  Proof.
    intros F m (S & D) [L f c e] o B. unfold heap_ok in B. cbn [live fresh] in B.
    set (Q := fun (p : Z * slot) h' => heap_ok h' /\
      ((live h' = L /\ (snd p = o \/ (fst p = IDN2_OK /\ snd p = Some None))) \/
       (exists n r, fst p = IDN2_OK /\ o <> None /\ snd p = Some (Some n) /\ unused (Heap L f c e) n /\ live h' = (n, r) :: L))).
    assert (T : takes E m o L f c Q).
    { split; [|split].
      - intros r f' c' e' -> G1 G2 M. split; [apply (below_mono L f); auto|]. left. auto.
      - intros r j n f' c' e' -> G1 G2 G3 M. split; [apply below_cons; [apply (below_mono L f); [exact B|cbn [fresh]; lia]|exact G2]|]. right.
        exists n, r. repeat split; try discriminate. now apply below_unused.
      - intros rc f' c' e' G1 G2 _. split; [apply (below_mono L f); auto|]. left. auto. }
    specialize (D o L f c e Q B T). unfold run in D. destruct (F o _) as [[[rc o'] h']|x| |]; try contradiction. exists rc, o', h'. auto.
  Qed.

  Lemma does_exactly : forall F m P, keeps_errno E -> plentiful E -> does F m -> (forall c, P c = deliver c m) -> exactly F P.
  Proof.
    intros F m P K PL (S & D) HP [L f c e] o B. unfold heap_ok in B. cbn [live fresh] in B.
    set (Q := fun (p : Z * slot) h' => P (shown (Heap L f c e) o) = Ok (fst p, shown h' (snd p))).
    assert (T : takes E m o L f c Q).
    { split; [|split]; unfold Q.
      - intros r f' c' e' -> G1 G2 M. rewrite HP, M. reflexivity.
      - intros r j n f' c' e' -> G1 G2 G3 M. rewrite HP, M. cbn [deliver fst snd]. rewrite shown_top. f_equal. f_equal.
        destruct (shown_none (Heap L f c e) (Some j)) as [X|(p & ->)]; [discriminate|reflexivity].
      - intros rc f' c' e' G1 G2 (N & [V|V]).
        + rewrite HP, V. cbn [deliver fst snd]. now rewrite (shown_live L f c e f' c' e').
        + apply starved_honest in V; auto. destruct V as (_ & n & _ & k & V). now rewrite PL in V. }
    specialize (D o L f c e Q B T). unfold run in D. destruct (F o _) as [[[rc o'] h']|x| |]; try contradiction. exists rc, o', h'. auto.
  Qed.

  (** Functions that do nothing to the heap. *)
  Lemma ret_frugal : forall (k : slot -> slot) (P : cell -> result) (F : slot -> M (Z * slot)),
    (forall o, k o = o \/ k o = Some None) -> (forall h o, P (shown h o) = Ok (IDN2_OK, shown h (k o))) ->
    (forall r, P (Some None) <> Ok (IDN2_OK, Some (Some r))) -> (forall o h, exists h', F o h = Ok (IDN2_OK, k o, h') /\ live h' = live h /\ fresh h' = fresh h) ->
    frugal E F P /\ tidy F /\ exactly F P.
  Proof.
    intros k P F HK HP HN HF. split; [|split].
    - intros h o B. destruct (HF o h) as (h' & H1 & H2 & H3). exists IDN2_OK, (k o), h'. split; [exact H1|].
      split; [unfold heap_ok; rewrite H2, H3; exact B|]. apply nothing_to_hand_out; auto.
    - intros h o B. destruct (HF o h) as (h' & H1 & H2 & H3). exists IDN2_OK, (k o), h'. split; [exact H1|].
      split; [unfold heap_ok; rewrite H2, H3; exact B|]. left. split; [exact H2|].
      destruct (HK o) as [X|X]; auto.
    - intros h o B. destruct (HF o h) as (h' & H1 & H2 & H3). exists IDN2_OK, (k o), h'. split; [exact H1|].
      rewrite (HP h). destruct (k o) as [[n|]|]; [|reflexivity|reflexivity]. cbn [shown]. now rewrite H2.
  Qed.
  Lemma null_frugal : forall F P, (forall o h, exists h', F o h = Ok (IDN2_OK, put_slot o None, h') /\ live h' = live h /\ fresh h' = fresh h) -> (forall c, P c = Ok (IDN2_OK, store c None)) ->
    frugal E F P /\ tidy F /\ exactly F P.
  Proof.
    intros F P HF HP. apply (ret_frugal (fun o => put_slot o None)).
    - intros [j|]; [now right|now left].
    - intros h o. rewrite HP. destruct o as [[n|]|]; reflexivity.
    - intros r. rewrite HP. discriminate.
    - exact HF.
  Qed.
  Lemma same_frugal : forall F P, (forall o h, exists h', F o h = Ok (IDN2_OK, o, h') /\ live h' = live h /\ fresh h' = fresh h) -> (forall c, P c = Ok (IDN2_OK, c)) ->
    frugal E F P /\ tidy F /\ exactly F P.
  Proof.
    intros F P HF HP. apply (ret_frugal (fun o => o)).
    - now left.
    - intros h o. now rewrite HP.
    - intros r. rewrite HP. discriminate.
    - exact HF.
  Qed.

  Definition sound (F : slot -> M (Z * slot)) (P : cell -> result) : Prop :=
    (keeps_errno E -> frugal E F P) /\ tidy F /\ (keeps_errno E -> plentiful E -> exactly F P).
  Lemma sound_does : forall F m P, does F m -> (forall c, P c = deliver c m) -> sound F P.
  Proof.
    intros F m P D HP. split; [|split].
    - intros K. now apply (does_frugal F m).
    - now apply (does_tidy F m).
    - intros K PL. now apply (does_exactly F m).
  Qed.
  Lemma sound_all : forall F P, frugal E F P /\ tidy F /\ exactly F P -> sound F P.
  Proof. intros F P (A & B & C). split; [|split]; auto. Qed.

  Variable U : uenv.
  Hypothesis K : nfc_ok U.

  Lemma unicode8_safe : forall s, c_string s -> zlen s < two64 -> safe (let* r := unicode s in utf8_out r).
  Proof.
    intros s C B. apply safe_bind; [now apply unicode_safe|]. intros r _. unfold utf8_out. destruct (u32_to_u8 _); exact I.
  Qed.
  Lemma utf8_in_safe : forall l k, zlen l < 4611686018427387904 -> (forall s, c_string s -> zlen s < two64 -> safe (k s)) -> safe (utf8_in l k).
  Proof.
    intros l k B S. unfold utf8_in. destruct (u32_to_u8 (l ++ [0])) as [b|] eqn:X; [|exact I].
    apply conv0_inv in X. destruct X as (s & H & ->). apply S; [now apply (utf8_prefix l)|].
    rewrite upto0_term. pose proof (upto0_zlen s). apply utf8_len in H. unfold two64. lia.
  Qed.
  Lemma loc_no0 : forall Lo, locale_ok Lo -> forall x b, from_locale Lo x = Some b -> ~ In 0 b.
  Proof. intros Lo H x b X I. apply H in X. destruct X as (C & _). unfold c_string in C. rewrite Forall_forall in C. specialize (C 0 I). lia. Qed.

  Lemma bytes_sound : forall Lo junk j F P i flags, locale_ok Lo -> In (F, P) (byte_functions E U Lo junk j) -> bytes_arg i ->
    sound (fun o => F (given i) o flags) (fun c => P i c flags).
  Proof.
    intros Lo junk j F P i flags LO H A. unfold byte_functions in H. cbn [In] in H. destruct i as [s|].
    - destruct (A s eq_refl) as (C & B). clear A.
      assert (SU : safe (match from_locale Lo s with None => Fail IDN2_ICONV_FAIL | Some b => lookup_u8 U b (Z.lor flags IDN2_NFC_INPUT) end)).
      { destruct (from_locale Lo s) as [b|] eqn:X; [|exact I]. apply LO in X. now apply lookup_safe. }
      assert (S8 : forall t, c_string t -> zlen t < two64 -> safe (let* b := (let* r := unicode t in utf8_out r) in locale_out Lo b)).
      { intros t C' B'. apply safe_bind; [now apply unicode8_safe|]. intros r _. unfold locale_out. destruct (to_locale Lo r); exact I. }
      repeat (destruct H as [H|H]; [injection H as <- <-|]); try contradiction; cbn [given option_map].
      + apply (sound_does _ (lookup_u8 U s flags)); [|reflexivity]. split; [now apply lookup_safe|]. intros.
        apply (wp_lookup_u8 E U _ _ s); auto; [reflexivity|now apply lookup_safe].
      + eapply sound_does; [|intros; apply f_ul]. split; [exact SU|]. intros. apply (wp_lookup_ul E U _ _ _ s); auto; [reflexivity|]. now apply loc_no0.
      + apply (sound_does _ (lookup_u8 U s flags)); [|reflexivity]. split; [now apply lookup_safe|]. intros.
        apply (wp_lookup_u8 E U _ _ s); auto; [reflexivity|now apply lookup_safe].
      + eapply sound_does; [|intros; apply f_ul]. split; [exact SU|]. intros. apply (wp_lookup_ul E U _ _ _ s); auto; [reflexivity|]. now apply loc_no0.
      + apply (sound_does _ (unicode s)); [|reflexivity]. split; [now apply unicode_safe|]. intros.
        apply (wp_8z4z E _ s); auto; [reflexivity|now apply unicode_safe].
      + eapply sound_does; [|intros; apply f_8z8z]. split; [now apply unicode8_safe|]. intros.
        apply (wp_8z8z E _ _ s); auto; [reflexivity|now apply unicode8_safe].
      + eapply sound_does; [|intros; apply f_8zlz]. split; [now apply S8|]. intros. apply (wp_8zlz E _ _ _ s); auto. reflexivity.
      + assert (SL : safe (match from_locale Lo s with None => Fail IDN2_ICONV_FAIL | Some b => let* b := (let* r := unicode b in utf8_out r) in locale_out Lo b end)).
        { destruct (from_locale Lo s) as [b|] eqn:X; [|exact I]. apply LO in X. now apply S8. }
        eapply sound_does; [|intros; apply f_lzlz]. split; [exact SL|]. intros. apply (wp_lzlz E _ _ _ s); auto; [reflexivity|]. now apply loc_no0.
    - repeat (destruct H as [H|H]; [injection H as <- <-|]); try contradiction; cbn [given option_map]; apply sound_all;
        try (apply null_frugal; [intros [x|] [L f c e]; eexists; (split; [reflexivity|auto])|intros [x|]; reflexivity]); (apply same_frugal; [intros [x|] [L f c e]; eexists; (split; [reflexivity|auto])|intros [x|]; reflexivity]).
  Qed.

  Lemma wide_sound : forall junk j F P i flags, In (F, P) (wide_functions E U junk j) -> wide_arg i ->
    sound (fun o => F (given i) o flags) (fun c => P i c flags).
  Proof.
    intros junk j F P i flags H A. unfold wide_functions in H. cbn [In] in H. destruct i as [s|].
    - specialize (A s eq_refl). assert (A0 : zlen (upto0 s) < 4611686018427387904) by (pose proof (upto0_zlen s); lia).
      assert (S1 : forall l, zlen l < 4611686018427387904 -> safe (utf8_in l (fun t => lookup_u8 U t flags))).
      { intros l B. apply utf8_in_safe; [exact B|]. intros. now apply lookup_safe. }
      assert (S2 : forall l, zlen l < 4611686018427387904 -> safe (utf8_in l unicode)).
      { intros l B. apply utf8_in_safe; [exact B|]. intros. now apply unicode_safe. }
      repeat (destruct H as [H|H]; [injection H as <- <-|]); try contradiction; cbn [given option_map].
      + eapply sound_does; [|intros; apply f_4z]. split; [auto|]. intros. apply (wp_4z E U _ _ s); auto. reflexivity.
      + eapply sound_does; [|intros; apply f_4i2]. split; [auto|]. intros. apply (wp_4i2 E U _ _ s); auto. reflexivity.
      + eapply sound_does; [|intros; apply f_4z4z]. split; [auto|]. intros. apply (wp_4z4z E _ _ s); auto. reflexivity.
    - repeat (destruct H as [H|H]; [injection H as <- <-|]); try contradiction; cbn [given option_map]; apply sound_all;
        (apply null_frugal; [intros [x|] [L f c e]; eexists; (split; [reflexivity|auto])|intros [x|]; reflexivity]).
  Qed.

  (** ** Registration *)
  Lemma reg_u_safe : forall u f, c_string u -> safe (reg_ulabel U u f).
  Proof. intros u f C. pose proof (reg_u_codes U u f K C) as X. destruct (reg_ulabel U u f); auto; exact I. Qed.
  Lemma reg_a_safe : forall u a, c_string a -> safe (reg_alabel U u a).
  Proof. intros u a C. pose proof (reg_a_codes U u a K C) as X. destruct (reg_alabel U u a); auto; exact I. Qed.

  Definition reg_out (u a : ptr) (flags : Z) : option (out (list Z)) :=
    match a, u with None, None => None | Some a, _ => Some (reg_alabel U u a) | None, Some u => Some (reg_ulabel U u flags) end.

  Lemma register_sound_mem : forall junk u a flags, bytes_arg u -> bytes_arg a ->
    sound (fun o => m_register_u8 E U junk (given u) (given a) o flags) (fun c => register_u8 U u a c flags).
  Proof.
    intros junk u a flags BU BA. destruct a as [a|]; [|destruct u as [u|]].
    - destruct (BA a eq_refl) as (C & B). apply (sound_does _ (reg_alabel U u a)); [|reflexivity].
      split; [now apply reg_a_safe|]. intros. cbn [given option_map m_register_u8]. apply (wp_reg_alabel E U _ _ u _ a); auto; [reflexivity| |].
      + destruct u; cbn [option_map]; [reflexivity|exact I].
      + now apply reg_a_safe.
    - destruct (BU u eq_refl) as (C & B). apply (sound_does _ (reg_ulabel U u flags)); [|reflexivity].
      split; [now apply reg_u_safe|]. intros. cbn [given option_map m_register_u8]. apply (wp_reg_ulabel E U _ _ u); auto; [reflexivity|].
      now apply reg_u_safe.
    - apply sound_all, null_frugal; [intros [x|] [L f c e]; eexists; (split; [reflexivity|auto])|intros [x|]; reflexivity].
  Qed.

  Lemma register_ul_sound : forall Lo junk u a flags, locale_ok Lo -> bytes_arg u -> bytes_arg a ->
    sound (fun o => m_register_ul E U Lo junk (given u) (given a) o flags) (fun c => register_ul U Lo u a c flags).
  Proof.
    intros Lo junk u a flags LO BU BA. destruct u as [u|].
    - set (m := match from_locale Lo u with
                | None => Fail IDN2_ICONV_FAIL
                | Some s => match a with Some a => reg_alabel U (Some s) a | None => reg_ulabel U s (Z.lor flags IDN2_NFC_INPUT) end
                end).
      assert (S : safe m).
      { unfold m. destruct (from_locale Lo u) as [s|] eqn:X; [|exact I]. destruct a as [a|].
        - destruct (BA a eq_refl). now apply reg_a_safe.
        - apply LO in X. now apply reg_u_safe. }
      apply (sound_does _ m).
      2:{ intros c. unfold register_ul, m. destruct (from_locale Lo u); [|reflexivity]. destruct a; reflexivity. }
      split; [exact S|]. intros o L f c e Q B T. unfold m_register_ul. cbn [given option_map].
      apply run_bind, (run_cstr _ L f c e u); [reflexivity|]. unfold m in S, T. clear m.
      apply run_bind, run_acquire.
      + intros F. apply run_bind, run_or, run_ret. apply (takes_bad E _ _ _ _ _ _ _ _ _ _ T); [lia|lia|now_failed].
      + intros N. rewrite N in *. apply run_bind, run_or, run_ret. apply (takes_bad E _ _ _ _ _ _ _ _ _ _ T); [lia|lia|now_refused]. reflexivity.
      + intros b N. rewrite N in *.
        assert (B' : below ((f, b) :: L) (Datatypes.S f)) by (apply below_cons; [apply (below_mono L f); [exact B|lia]|lia]).
        assert (R : reads (Block f) ((f, b) :: L) b).
        { exists b. cbn [find_block]. rewrite Nat.eqb_refl. split; [reflexivity|]. apply upto0_id. now apply (loc_no0 Lo LO u). }
        destruct a as [a|]; cbn [m_register_u8 option_map].
        * apply run_bind, (wp_reg_alabel E U _ _ (Some b) _ a); auto; [reflexivity|]. apply (takes_then_free E _ _ _ _ _ f c); auto.
        * apply run_bind, (wp_reg_ulabel E U _ _ b); auto. apply (takes_then_free E _ _ _ _ _ f c); auto.
    - destruct a as [a|].
      + destruct (BA a eq_refl) as (C & B). apply (sound_does _ (reg_alabel U None a)); [|reflexivity].
        split; [now apply reg_a_safe|]. intros o L f c e Q B' T. unfold m_register_ul. cbn [given option_map m_register_u8].
        apply run_bind, (wp_reg_alabel E U _ _ None _ a); [exact B'|reflexivity|exact I|now apply reg_a_safe|].
        destruct T as (T1 & T2 & T3). split; [|split].
        * intros. apply run_bind, run_free_null, run_ret. apply (T1 r); auto.
        * intros. apply run_bind, run_free_null, run_ret. apply (T2 r j); auto.
        * intros rc f' c' e' G1 G2 V. apply run_bind, run_free_null, run_ret. apply T3; [lia|lia|]. apply (bad_widen E _ _ _ _ _ _ _ _ _ V); auto.
      + apply sound_all, null_frugal; [intros [x|] [L f c e]; eexists; (split; [reflexivity|auto])|intros [x|]; reflexivity].
  Qed.

  (** ** The functions that fill arrays of the caller *)
  Lemma ascii_4i_frugal : forall junk j i o flags, wide_arg i -> (forall a, o = Some a -> 63 <= zlen a) ->
    (keeps_errno E -> frugal_array E (m_to_ascii_4i E U junk (given i) o flags) (to_ascii_4i U j i o flags) o) /\
    tidy_array (m_to_ascii_4i E U junk (given i) o flags).
  Proof.
    intros junk j i o flags A AO. destruct i as [l|].
    - specialize (A l eq_refl).
      assert (S : safe (to_ascii_4i U j (Some l) o flags)).
      { destruct o as [a|]; [apply ascii_4i_safe; auto|]. rewrite f_4i.
        pose proof (utf8_in_safe l (fun s => lookup_u8 U s flags) A ltac:(intros; now apply lookup_safe)) as S.
        destruct (utf8_in l _); try contradiction; try exact I. destruct (63 <? _); exact I. }
      split.
      + intros KE [L f c e] B. cbn [live fresh].
        assert (D : run (m_to_ascii_4i E U junk (given (Some l)) o flags) (Heap L f c e) (fun p h' => live h' = L /\ (f <= fresh h')%nat /\
          (to_ascii_4i U j (Some l) o flags = Ok p \/ (fst p = IDN2_MALLOC /\ snd p = o /\ ran_out E (Heap L f c e) h')))).
        { apply (wp_4i E U _ j _ l); auto; [reflexivity|].
          intros rc f' c' e' G1 G2 V. apply starved_honest in V; auto. destruct V as (-> & V). cbn [live fresh fst snd]. auto 6. }
        unfold run in D. destruct (m_to_ascii_4i _ _ _ _ _ _ _) as [[[rc a] h']|x| |]; try contradiction. exists rc, a, h'. cbn [fst snd] in D. tauto.
      + intros [L f c e] B. cbn [live fresh].
        assert (D : run (m_to_ascii_4i E U junk (given (Some l)) o flags) (Heap L f c e) (fun p h' => live h' = L /\ (f <= fresh h')%nat)).
        { apply (wp_4i E U _ j _ l); auto. reflexivity. }
        unfold run in D. destruct (m_to_ascii_4i _ _ _ _ _ _ _) as [[[rc a] h']|x| |]; try contradiction. exists rc, a, h'. tauto.
    - assert (X : exists a, to_ascii_4i U j None o flags = Ok (IDN2_OK, a) /\
        forall h, m_to_ascii_4i E U junk (given None) o flags h = Ok (IDN2_OK, a, h)).
      { destruct o as [[|x a]|]; [|eexists; split; reflexivity|eexists; split; reflexivity].
        specialize (AO [] eq_refl). change (zlen []) with 0 in AO. lia. }
      destruct X as (a & X1 & X2). split; [intros KE|]; intros h B; exists IDN2_OK, a, h; auto 6.
  Qed.

  Lemma unicode_44i_frugal : forall junk j i arr n flags, wide_arg i -> match arr, n with Some a, Some n => 0 <= n <= zlen a | _, _ => True end ->
    (keeps_errno E -> forall h, heap_ok h -> exists rc a n' h', m_to_unicode_44i E junk (given i) arr n flags h = Ok (rc, a, n', h') /\
       live h' = live h /\ (fresh h <= fresh h')%nat /\
       (to_unicode_44i j i arr n flags = Ok (rc, a, n') \/ (rc = IDN2_MALLOC /\ a = arr /\ n' = n /\ ran_out E h h'))) /\
    (forall h, heap_ok h -> exists rc a n' h', m_to_unicode_44i E junk (given i) arr n flags h = Ok (rc, a, n', h') /\
       live h' = live h /\ (fresh h <= fresh h')%nat).
  Proof.
    intros junk j i arr n flags A AO. destruct i as [l|].
    - specialize (A l eq_refl). assert (S := unicode_44i_safe j l arr n flags A AO). split.
      + intros KE [L f c e] B. cbn [live fresh].
        assert (D : run (m_to_unicode_44i E junk (given (Some l)) arr n flags) (Heap L f c e) (fun p h' => live h' = L /\ (f <= fresh h')%nat /\
          (to_unicode_44i j (Some l) arr n flags = Ok p \/ (p = (IDN2_MALLOC, arr, n) /\ ran_out E (Heap L f c e) h')))).
        { apply (wp_44i E _ j _ l); auto; [reflexivity|].
          intros rc f' c' e' G1 G2 V. apply starved_honest in V; auto. destruct V as (-> & V). cbn [live fresh fst snd]. auto 6. }
        unfold run in D. destruct (m_to_unicode_44i _ _ _ _ _ _ _) as [[[[rc a] n'] h']|x| |]; try contradiction. exists rc, a, n', h'.
        destruct D as (D1 & D2 & [D3|(D3 & D4)]); [auto 6|]. injection D3 as -> -> ->. auto 9.
      + intros [L f c e] B. cbn [live fresh].
        assert (D : run (m_to_unicode_44i E junk (given (Some l)) arr n flags) (Heap L f c e) (fun p h' => live h' = L /\ (f <= fresh h')%nat)).
        { apply (wp_44i E _ j _ l); auto. reflexivity. }
        unfold run in D. destruct (m_to_unicode_44i _ _ _ _ _ _ _) as [[[[rc a] n'] h']|x| |]; try contradiction. exists rc, a, n', h'. tauto.
    - split; [intros KE|]; intros [L f c e] B; exists IDN2_OK, arr, (match n with Some _ => Some 0 | None => None end), (Heap L f c e); (split; [reflexivity|]); auto 6.
  Qed.
End Top.
