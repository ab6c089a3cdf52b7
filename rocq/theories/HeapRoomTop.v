(** With enough memory the functions do what the model without memory does. *)
From Verif Require Import Base Uenv Utf8 Puny Idna Lookup Api Register PunyBase SpecNfc SpecLookup SpecCli Heap SpecHeap SpecRoom HeapProofs HeapTop HeapRoom HeapRoomApi.

Lemma never_plentiful : forall E, plentiful (never E).
Proof. intros E n k. reflexivity. Qed.
Lemma never_keeps : forall E, keeps_errno E -> keeps_errno (never E).
Proof. intros E H n. apply H. Qed.
Lemma never_out : forall E h h', ~ ran_out (never E) h h'.
Proof. intros E h h' (n & _ & k & H). discriminate H. Qed.
Lemma gives_true : forall n o L f, gives n o L f (fun _ _ => True).
Proof. intros. repeat split. Qed.

Section Top.
  Variable E : allocator.
  Hypothesis KE : keeps_errno E.
  Variable U : uenv.
  Hypothesis K : nfc_ok U.
  Variable B : Z.
  Hypothesis R : roomy E B.

  Lemma exactly_here : forall h (F F' : slot -> M (Z * slot)) P, heap_ok h -> (forall o, F o h = F' o h) -> exactly F' P -> exactly_in h F P.
  Proof. intros h F F' P H X D o. rewrite X. now apply D. Qed.

  Lemma bytes_room : forall Lo k junk j F P b i flags h, locale_ok Lo -> grows Lo k -> 0 <= k ->
    In (F, P, b) (combine (byte_functions E U Lo junk j) (byte_needs k flags (size i))) ->
    bytes_arg i -> k * size i < two64 -> heap_ok h -> cells (live h) + b <= B ->
    exactly_in h (fun o => F (given i) o flags) (fun c => P i c flags).
  Proof.
    intros Lo k junk j F P b i flags [L f c e] LO Gr Kp H A Sz HO HB. cbn [live] in HB.
    assert (Go : forall F', In (F', P) (byte_functions (never E) U Lo junk j) -> (forall o, F (given i) o flags (Heap L f c e) = F' (given i) o flags (Heap L f c e)) ->
      exactly_in (Heap L f c e) (fun o => F (given i) o flags) (fun c => P i c flags)).
    { intros F' I' X. apply (exactly_here _ _ (fun o => F' (given i) o flags)); [exact HO|exact X|].
      exact (proj2 (proj2 (bytes_sound (never E) U K Lo junk j F' P i flags LO I' A)) (never_keeps E KE) (never_plentiful E)). }
    unfold byte_functions, byte_needs in H. cbn [combine In] in H.
    assert (Sn : forall s, i = Some s -> size i = zlen s /\ 0 <= zlen s < two64).
    { intros s ->. split; [reflexivity|]. split; [apply zlen_nonneg|]. now apply (A s). }
    repeat (destruct H as [H|H]; [pose proof (f_equal snd H) as Hb; cbn [snd] in Hb; apply (f_equal fst) in H; cbn [fst] in H; injection H as <- <-; subst b|]); try contradiction;
      (eapply Go; [unfold byte_functions; cbn [In]; eauto 20|]); intros o;
      (destruct i as [s|]; [|reflexivity]); destruct (Sn s eq_refl) as (S1 & S2); rewrite S1 in *; cbn [given option_map];
      assert (An : forall t, reads (Caller s) L t -> zlen t <= zlen s) by (intros t Rt; cbn [reads] in Rt; subst t; lia).
    - apply (ag_lookup_u8 E U K B R junk _ (zlen s) o flags L f c e (fun _ _ => True)); auto; [lia|apply gives_true].
    - apply (ag_lookup_ul E U K B R Lo k junk _ (zlen s) o flags L f c e (fun _ _ => True)); auto; [lia|apply gives_true].
    - apply (ag_lookup_u8 E U K B R junk _ (zlen s) o flags L f c e (fun _ _ => True)); auto; [lia|apply gives_true].
    - apply (ag_lookup_ul E U K B R Lo k junk _ (zlen s) o flags L f c e (fun _ _ => True)); auto; [lia|apply gives_true].
    - apply (ag_8z4z E B R _ (zlen s) o flags L f c e (fun _ _ => True)); auto. apply gives_true.
    - apply (ag_8z8z E B R junk _ (zlen s) o flags L f c e (fun _ _ => True)); auto; [lia|apply gives_true].
    - apply (ag_8zlz E B R Lo k junk _ (zlen s) o flags L f c e (fun _ _ => True)); auto; [lia|apply gives_true].
    - apply (ag_lzlz E B R Lo k junk _ (zlen s) o flags L f c e (fun _ _ => True)); auto; [lia|lia|apply gives_true].
  Qed.

  Lemma wide_room : forall junk j F P b i flags h,
    In (F, P, b) (combine (wide_functions E U junk j) (wide_needs flags (size i))) ->
    wide_arg i -> 4 * size i + 4 < two64 -> heap_ok h -> cells (live h) + b <= B ->
    exactly_in h (fun o => F (given i) o flags) (fun c => P i c flags).
  Proof.
    intros junk j F P b i flags [L f c e] H A Sz HO HB. cbn [live] in HB.
    assert (Go : forall F', In (F', P) (wide_functions (never E) U junk j) -> (forall o, F (given i) o flags (Heap L f c e) = F' (given i) o flags (Heap L f c e)) ->
      exactly_in (Heap L f c e) (fun o => F (given i) o flags) (fun c => P i c flags)).
    { intros F' I' X. apply (exactly_here _ _ (fun o => F' (given i) o flags)); [exact HO|exact X|].
      exact (proj2 (proj2 (wide_sound (never E) U K junk j F' P i flags I' A)) (never_keeps E KE) (never_plentiful E)). }
    unfold wide_functions, wide_needs in H. cbn [combine In] in H.
    assert (Sn : forall s, i = Some s -> size i = zlen s /\ 0 <= zlen s /\ 4 * zlen s + 4 < two64).
    { intros s ->. pose proof (zlen_nonneg _ s). cbn [size] in *. lia. }
    repeat (destruct H as [H|H]; [pose proof (f_equal snd H) as Hb; cbn [snd] in Hb; apply (f_equal fst) in H; cbn [fst] in H; injection H as <- <-; subst b|]); try contradiction;
      (eapply Go; [unfold wide_functions; cbn [In]; eauto 20|]); intros o;
      (destruct i as [s|]; [|reflexivity]); destruct (Sn s eq_refl) as (S1 & S2 & S3); rewrite S1 in *; cbn [given option_map];
      assert (An : forall t, alive (Caller s) L t -> zlen t <= zlen s) by (intros t Rt; cbn [alive] in Rt; subst t; lia).
    - apply (ag_4z E U K B R junk _ (zlen s) o flags L f c e (fun _ _ => True)); auto; [lia|apply gives_true].
    - apply (ag_4i2 E U K B R junk _ (zlen s) o flags L f c e (fun _ _ => True)); auto; [lia|apply gives_true].
    - apply (ag_4z4z E B R junk _ (zlen s) o flags L f c e (fun _ _ => True)); auto; [lia|apply gives_true].
  Qed.

  Lemma register_room : forall junk u a flags h, bytes_arg u -> bytes_arg a -> heap_ok h -> cells (live h) + register_needs (size u) <= B ->
    exactly_in h (fun o => m_register_u8 E U junk (given u) (given a) o flags) (fun c => register_u8 U u a c flags).
  Proof.
    intros junk u a flags [L f c e] BU BA HO HB. cbn [live] in HB.
    apply (exactly_here _ _ (fun o => m_register_u8 (never E) U junk (given u) (given a) o flags)); [exact HO| |
      exact (proj2 (proj2 (register_sound_mem (never E) U K junk u a flags BU BA)) (never_keeps E KE) (never_plentiful E))].
    intros o. unfold register_needs in HB.
    apply (ag_register_u8 E U K B R junk _ _ (size u) o flags L f c e (fun _ _ => True)); auto; [| |apply gives_true].
    - intros x s X Rx. destruct u as [u|]; [|discriminate]. injection X as <-. cbn [reads] in Rx. subst s. cbn [size]. lia.
    - destruct u; cbn [size]; [apply zlen_nonneg|lia].
  Qed.

  Lemma register_ul_room : forall Lo k junk u a flags h, locale_ok Lo -> grows Lo k -> 0 <= k -> bytes_arg u -> bytes_arg a -> heap_ok h ->
    cells (live h) + k * size u + register_needs (k * size u) <= B ->
    exactly_in h (fun o => m_register_ul E U Lo junk (given u) (given a) o flags) (fun c => register_ul U Lo u a c flags).
  Proof.
    intros Lo k junk u a flags [L f c e] LO Gr Kp BU BA HO HB. cbn [live] in HB.
    apply (exactly_here _ _ (fun o => m_register_ul (never E) U Lo junk (given u) (given a) o flags)); [exact HO| |
      exact (proj2 (proj2 (register_ul_sound (never E) U K Lo junk u a flags LO BU BA)) (never_keeps E KE) (never_plentiful E))].
    intros o. unfold register_needs in HB.
    apply (ag_register_ul E U K B R Lo k junk _ _ (size u) o flags L f c e (fun _ _ => True)); auto; [| |apply gives_true].
    - intros x s X Rx. destruct u as [u|]; [|discriminate]. injection X as <-. cbn [reads] in Rx. subst s. cbn [size]. lia.
    - destruct u; cbn [size]; [apply zlen_nonneg|lia].
  Qed.

  Lemma ascii_4i_room : forall junk j i o flags h, wide_arg i -> 4 * size i + 4 < two64 -> (forall a, o = Some a -> 63 <= zlen a) -> heap_ok h ->
    cells (live h) + 5 * size i + 5 + lookup_needs flags (4 * size i + 4) <= B ->
    exists rc a h', m_to_ascii_4i E U junk (given i) o flags h = Ok (rc, a, h') /\ live h' = live h /\ to_ascii_4i U j i o flags = Ok (rc, a).
  Proof.
    intros junk j i o flags [L f c e] A Sz AO HO HB. cbn [live] in HB.
    assert (X : m_to_ascii_4i E U junk (given i) o flags (Heap L f c e) = m_to_ascii_4i (never E) U junk (given i) o flags (Heap L f c e)).
    { destruct i as [s|]; [|reflexivity]. cbn [size] in HB, Sz. cbn [given option_map].
      apply (ag_4i E U K B R junk _ (zlen s) o flags L f c e (fun _ _ => True)); auto.
      intros t Rt. cbn [alive] in Rt. subst t. lia. }
    destruct (proj1 (ascii_4i_frugal (never E) U K junk j i o flags A AO) (never_keeps E KE) _ HO) as (rc & a & h' & X1 & X2 & _ & X3).
    exists rc, a, h'. rewrite X. split; [exact X1|]. split; [exact X2|]. destruct X3 as [X3|(_ & _ & X3)]; [exact X3|]. now apply never_out in X3.
  Qed.

  Lemma unicode_44i_room : forall junk j i arr n flags h, wide_arg i -> match arr, n with Some a, Some n => 0 <= n <= zlen a | _, _ => True end -> heap_ok h ->
    cells (live h) + 9 * size i + 272 <= B ->
    exists rc a n' h', m_to_unicode_44i E junk (given i) arr n flags h = Ok (rc, a, n', h') /\ live h' = live h /\ to_unicode_44i j i arr n flags = Ok (rc, a, n').
  Proof.
    intros junk j i arr n flags [L f c e] A AO HO HB. cbn [live] in HB.
    assert (X : m_to_unicode_44i E junk (given i) arr n flags (Heap L f c e) = m_to_unicode_44i (never E) junk (given i) arr n flags (Heap L f c e)).
    { destruct i as [s|]; [|reflexivity]. cbn [size] in HB. cbn [given option_map].
      apply (ag_44i E B R junk _ (zlen s) arr n flags L f c e (fun _ _ => True)); auto; [|apply zlen_nonneg].
      intros t Rt. cbn [alive] in Rt. subst t. lia. }
    destruct (proj1 (unicode_44i_frugal (never E) junk j i arr n flags A AO) (never_keeps E KE) _ HO) as (rc & a & n' & h' & X1 & X2 & _ & X3).
    exists rc, a, n', h'. rewrite X. split; [exact X1|]. split; [exact X2|]. destruct X3 as [X3|(_ & _ & _ & X3)]; [exact X3|]. now apply never_out in X3.
  Qed.
End Top.
