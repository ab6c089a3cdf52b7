(** The claims about the fuzz targets. *)
From Verif Require Import Base Uenv Utf8 Bidi Context Idna Puny Lookup Api Register PunyBase PunyDec SpecUtf8 Utf8Proofs SpecNfc SpecLookup Cli SpecCli LookupProofs LookupTr46 NonZero NoFail
  ApiProofs RegisterProofs RegisterTop Heap SpecHeap HeapProofs HeapRun HeapApi HeapTop Version Client SpecClient ClientProofs.

Lemma bytes_upto0 : forall l, bytes l -> c_string (upto0 l).
Proof.
  intros l H. unfold c_string, bytes in *. induction H as [|x r A H IH]; cbn [upto0]; [constructor|].
  destruct (x =? 0) eqn:X; [constructor|]. constructor; [apply Z.eqb_neq in X; lia|exact IH].
Qed.
Lemma bytes_ok : forall l, bytes l -> zlen l <= 2000 -> byte_ok (upto0 l).
Proof. intros l H B. split; [now apply bytes_upto0|]. pose proof (upto0_zlen l). unfold two64. lia. Qed.
Lemma reads_top : forall n l L, reads (Block n) ((n, l) :: L) (upto0 l).
Proof. intros. exists l. cbn [find_block]. now rewrite Nat.eqb_refl. Qed.
Lemma alive_top : forall n l L, alive (Block n) ((n, l) :: L) l.
Proof. intros. cbn [alive find_block]. now rewrite Nat.eqb_refl. Qed.
Lemma words_len : forall l, (length (words l) <= length l)%nat.
Proof.
  intros l. assert (G : forall n l, (length l <= n)%nat -> (length (words l) <= length l)%nat).
  { induction n as [|n IH]; intros k B; [destruct k; [cbn; lia|cbn in B; lia]|]. destruct k as [|a [|b [|c [|d r] ] ] ]; try (cbn; lia).
    cbn [words length] in *. specialize (IH r). lia. }
  now apply (G (length l)).
Qed.
Lemma below_top : forall L f l, below L f -> below ((f, l) :: L) (S f).
Proof. intros L f l B. apply below_cons; [apply (below_mono L f); [exact B|lia]|lia]. Qed.

Section Fuzz.
  Variable E : allocator.
  Variable U : uenv.
  Hypothesis K : nfc_ok U.
  Variable Lo : locale.
  Hypothesis LO : locale_ok Lo.
  Variable version : list Z.
  Variable junk out0 : option nat.
  Variable garbage : nat -> list Z.
  Hypothesis GA : arrays garbage.

  Lemma goes_use : forall F L out f c e A (k : option nat -> M A) (Q : A -> heap -> Prop), fine E F L -> below L f ->
    (forall out' f' c' e', (f <= f')%nat -> (c <= c')%nat -> below L f' -> goes E (k out') (Heap L f' c' e') Q) ->
    goes E (hbind (use E F out) k) (Heap L f c e) Q.
  Proof.
    intros F L out f c e A k Q X B H. apply goes_bind, goes_run, run_use; [exact X|exact B|]. intros out' f' c' e' G1 G2. cbn [calls].
    split; [lia|]. apply H; auto. now apply (below_mono L f).
  Qed.
  Lemma goes_only : forall F L f c e A (k : unit -> M A) (Q : A -> heap -> Prop), fine E F L -> below L f ->
    (forall f' c' e', (f <= f')%nat -> (c <= c')%nat -> below L f' -> goes E (k tt) (Heap L f' c' e') Q) ->
    goes E (hbind (only F) k) (Heap L f c e) Q.
  Proof.
    intros F L f c e A k Q X B H. apply goes_bind, goes_run, (run_only E); [exact X|exact B|]. intros f' c' e' G1 G2. cbn [calls].
    split; [lia|]. apply H; auto. now apply (below_mono L f).
  Qed.
  Lemma goes_free_top : forall n l L f c e A (k : unit -> M A) (Q : A -> heap -> Prop), below ((n, l) :: L) f ->
    (forall c' e', (c <= c')%nat -> below L f -> goes E (k tt) (Heap L f c' e') Q) -> goes E (hbind (free E (Some n)) k) (Heap ((n, l) :: L) f c e) Q.
  Proof.
    intros n l L f c e A k Q B H. apply goes_bind, goes_run, run_free_top. cbn [calls]. split; [lia|]. apply H; [lia|].
    intros m x I. apply (B m x). now right.
  Qed.
  Lemma goes_alloc : forall l L f c e A (k : nat -> M A) (Q : A -> heap -> Prop), below L f ->
    (below ((f, l) :: L) (S f) -> goes E (k f) (Heap ((f, l) :: L) (S f) (S c) e) Q) -> goes E (hbind (new E l) k) (Heap L f c e) Q.
  Proof.
    intros l L f c e A k Q B H. apply goes_bind, goes_new. cbn [calls]. split; [lia|]. apply H. now apply below_top.
  Qed.
  Lemma goes_if : forall A (b : bool) (m : M A) (x : A) B (k : A -> M B) h Q, (b = true -> goes E (hbind m k) h Q) -> (b = false -> goes E (k x) h Q) ->
    goes E (hbind (if b then m else ret x) k) h Q.
  Proof. intros A [] m x B k h Q H1 H2; [now apply H1|]. specialize (H2 eq_refl). apply goes_bind, goes_ret. auto. Qed.
  Lemma goes_assoc : forall A B C (m : M A) (k : A -> M B) (g : B -> M C) h Q,
    goes E (hbind m (fun a => hbind (k a) g)) h Q -> goes E (hbind (hbind m k) g) h Q.
  Proof. intros A B C m k g h Q. unfold goes, hbind. destruct (m h) as [[a h']| | |]; cbn [bind]; auto. Qed.
  Lemma goes_return : forall A B (a : A) (k : A -> M B) h Q, goes E (k a) h Q -> goes E (hbind (ret a) k) h Q.
  Proof. intros. exact H. Qed.

  Lemma alabel_bytes : forall d, bytes d -> bytes (alabel_buffer d) /\ zlen (alabel_buffer d) <= 2 * zlen d + 10.
  Proof.
    intros d H. unfold alabel_buffer.
    assert (A : bytes (ace_prefix ++ d)) by (apply Forall_app; split; [repeat constructor; lia|exact H]).
    assert (A' : bytes (ace_prefix ++ d ++ [0])) by (rewrite app_assoc; apply Forall_app; split; [exact A|repeat constructor; lia]).
    split.
    - unfold bytes in *. apply Forall_app. split; [now apply Forall_firstn|]. apply Forall_app. split; [repeat constructor; lia|]. now apply Forall_skipn.
    - unfold zlen. rewrite !app_length, firstn_length, skipn_length, !app_length. cbn [length ace_prefix]. lia.
  Qed.

  Lemma harmless_of : forall m, (forall L f c e, below L f -> goes E m (Heap L f c e) (fun st h' => st = 0 /\ live h' = L)) -> harmless E m.
  Proof. intros m H [L f c e] B. exact (H L f c e B). Qed.

  Theorem register_harmless : forall data, bytes data -> harmless E (fuzz_register E U Lo junk out0 data).
  Proof.
    intros data BY. apply harmless_of. intros L f c e B. unfold fuzz_register.
    destruct (1024 <? zlen data) eqn:Z0; [now apply goes_ret|]. apply Z.ltb_ge in Z0.
    apply goes_alloc; [exact B|]. clear B. intros B.
    set (L1 := (f, data ++ [0]) :: L) in *.
    assert (N : fine E (fun o => m_register_ul E U Lo junk (Some (Block f)) None o 0) L1).
    { right. eexists. apply (neat_reg_u E U K Lo LO junk (Block f) (upto0 (data ++ [0]))). apply reads_top. }
    assert (Go : forall out f' c' e', below L1 f' -> goes E
      (let! out := use E (fun o => m_register_ul E U Lo junk (Some (Block f)) None o 0) out in
       let! _ := free E (Some f) in
       let! a := new E (alabel_buffer data) in
       let alabel := Some (Block a) in
       let! _ := use E (fun o => m_register_ul E U Lo junk None alabel o 0) out in
       let! _ := (if zlen data =? 0 then only (fun o => m_register_ul E U Lo junk None alabel o 0) else ret tt) in
       let! _ := free E (Some a) in ret 0) (Heap L1 f' c' e') (fun st h' => st = 0 /\ live h' = L)).
    { intros out f' c' e' B'. apply goes_use; [exact N|exact B'|]. intros out' f2 c2 e2 _ _ B2.
      apply goes_free_top; [exact B2|]. intros c3 e3 _ B3. apply goes_alloc; [exact B3|]. intros B4. cbv zeta.
      destruct (alabel_bytes data BY) as (X1 & X2).
      assert (N' : fine E (fun o => m_register_ul E U Lo junk None (Some (Block f2)) o 0) ((f2, alabel_buffer data) :: L)).
      { right. eexists. apply (neat_reg_a E U K Lo junk (Block f2) (upto0 (alabel_buffer data))); [|apply reads_top].
        split; [now apply bytes_upto0|]. pose proof (upto0_zlen (alabel_buffer data)). unfold two64. lia. }
      apply goes_use; [exact N'|exact B4|]. intros out4 f5 c5 e5 _ _ B5.
      assert (Fin : forall f6 c6 e6, below ((f2, alabel_buffer data) :: L) f6 -> goes E (let! _ := free E (Some f2) in ret 0)
        (Heap ((f2, alabel_buffer data) :: L) f6 c6 e6) (fun st h' => st = 0 /\ live h' = L)).
      { intros f6 c6 e6 B6. apply goes_free_top; [exact B6|]. intros c7 e7 _ _. now apply goes_ret. }
      apply goes_if; [intros _|intros _; now apply Fin]. apply goes_only; [exact N'|exact B5|]. intros. now apply Fin. }
    cbv zeta in Go |- *. apply goes_if; [intros _|intros _; now apply Go].
    apply goes_assoc. apply goes_use; [left; apply null_reg|exact B|]. intros out1 f1 c1 e1 _ _ B1.
    apply goes_assoc. apply goes_only; [exact N|exact B1|]. intros f2 c2 e2 _ _ B2. apply goes_return. now apply Go.
  Qed.

  (** ** ToASCII *)
  Lemma goes_loop : forall body L fl out f c e A (k : option nat -> M A) (Q : A -> heap -> Prop), below L f ->
    (forall fl out f c e (Q : option nat -> heap -> Prop), below L f -> (forall out', later L f c Q out') -> run (body fl out) (Heap L f c e) Q) ->
    (forall out' f' c' e', (f <= f')%nat -> (c <= c')%nat -> below L f' -> goes E (k out') (Heap L f' c' e') Q) ->
    goes E (hbind (loop body fl out) k) (Heap L f c e) Q.
  Proof.
    intros body L fl out f c e A k Q B HB H. apply goes_bind, goes_run, run_loop; [exact B|exact HB|]. intros out' f' c' e' G1 G2. cbn [calls].
    split; [lia|]. apply H; auto. now apply (below_mono L f).
  Qed.
  Lemma goes_4i : forall i o L f c e A (k : Z * option (list Z) -> M A) (Q : A -> heap -> Prop), wide_arg i -> below L f ->
    (forall a, o = Some a -> 63 <= zlen a) ->
    (forall rc o' f' c' e', (f <= f')%nat -> (c <= c')%nat -> below L f' -> goes E (k (rc, o')) (Heap L f' c' e') Q) ->
    goes E (hbind (m_to_ascii_4i E U junk (given i) o 0) k) (Heap L f c e) Q.
  Proof.
    intros i o L f c e A k Q W B AO H. destruct i as [l|].
    - apply goes_bind, goes_run. apply (wp_4i E U _ None _ l); [exact B|reflexivity| | |].
      + specialize (W l eq_refl). destruct o as [a|]; [apply ascii_4i_safe; auto|]. rewrite f_4i.
        pose proof (utf8_in_safe l (fun s => lookup_u8 U s 0) W ltac:(intros; now apply lookup_safe)) as S.
        destruct (utf8_in l _); try contradiction; try exact I. destruct (63 <? _); exact I.
      + intros rc o' f' c' e' G1 G2 _. cbn [calls]. split; [lia|]. apply H; auto. now apply (below_mono L f).
      + intros rc f' c' e' G1 G2 _. cbn [calls]. split; [lia|]. apply H; auto. now apply (below_mono L f).
    - destruct o as [[|x a]|]; cbn [given option_map m_to_ascii_4i]; [|apply goes_return; now apply H|apply goes_return; now apply H].
      specialize (AO [] eq_refl). change (zlen []) with 0 in AO. lia.
  Qed.

  Lemma small_wide : forall data, zlen data <= 1024 -> zlen (words data) < 4611686018427387904.
  Proof. intros data B. pose proof (words_len data). unfold zlen in *. lia. Qed.

  Lemma goes_ascii_nulls : forall d s L f c e A (k : option nat -> M A) (Q : A -> heap -> Prop), reads (Block d) L s -> byte_ok s -> below L f ->
    (forall out' f' c' e', (f <= f')%nat -> (c <= c')%nat -> below L f' -> goes E (k out') (Heap L f' c' e') Q) ->
    goes E (hbind (ascii_nulls E U Lo junk out0 garbage (Some (Block d))) k) (Heap L f c e) Q.
  Proof.
    intros d s L f c e A k Q R BO B H. unfold ascii_nulls.
    assert (W0 : zlen (@nil Z) < 4611686018427387904) by reflexivity.
    assert (W1 : zlen [0] < 4611686018427387904) by reflexivity.
    Local Ltac u X := apply goes_assoc; apply goes_use; [first [left; apply X|right; eexists; eapply X; eauto]|assumption|intros].
    Local Ltac o X := apply goes_assoc; apply goes_only; [first [left; apply X|right; eexists; eapply X; eauto]|assumption|intros].
    u null_8z. o null_8z. o neat_8z. u null_lz. o null_lz. o neat_lz.
    assert (G1 : forall a k' h Q', (forall b, goes E (k' (IDN2_OK, Some b)) h Q') -> goes E (@hbind _ A (m_to_ascii_4i E U junk None (Some (garbage 1)) a) k') h Q').
    { intros a k' h Q' HH. pose proof (GA 1%nat) as X. destruct (garbage 1) as [|g1 gr]; [discriminate X|]. cbn [m_to_ascii_4i]. apply goes_return, HH. }
    apply goes_assoc, G1. intros b. apply goes_assoc. apply (goes_4i None None); [discriminate|assumption|discriminate|intros].
    apply goes_assoc. apply (goes_4i (Some []) None); [now intros l [= <-]|assumption|discriminate|intros].
    u null_4i2. o null_4i2. cbn [given option_map]. apply goes_assoc; apply goes_only; [right; eexists; apply (neat_4i2 E U K junk (Caller []) []); [exact W0|reflexivity]|assumption|intros].
    u null_4z. o null_4z. apply goes_assoc; apply goes_only; [right; eexists; apply (neat_4z E U K junk (Caller [0]) [0]); [exact W1|reflexivity]|assumption|intros].
    apply goes_return. apply H; [lia|lia|assumption].
  Qed.

  Lemma goes_ascii_wide : forall data out L f c e A (k : unit -> M A) (Q : A -> heap -> Prop), zlen data <= 1024 -> below L f ->
    (forall f' c' e', (f <= f')%nat -> (c <= c')%nat -> below L f' -> goes E (k tt) (Heap L f' c' e') Q) ->
    goes E (hbind (ascii_wide E U junk garbage data out) k) (Heap L f c e) Q.
  Proof.
    intros data out L f c e A k Q Z0 B H. pose proof (small_wide data Z0) as SW. unfold ascii_wide.
    unfold goes, hbind. unfold acquire at 1. cbn [calls live fresh errno].
    destruct (fails E c _) eqn:F1.
    { cbn [bind]. unfold acquire. cbn [calls live fresh errno]. destruct (fails E (S c) _); cbn [bind abort]; (split; [reflexivity|]; exists c; split; [lia|eexists; exact F1]). }
    cbn [bind]. unfold acquire at 1. cbn [calls live fresh errno]. destruct (fails E (S c) _) eqn:F2.
    { cbn [bind abort]. split; [reflexivity|]. exists (S c). split; [lia|eexists; exact F2]. }
    cbn [bind].
    set (L1 := (f, garbage (S (length (words data)))) :: L). set (L2 := (S f, garbage 64) :: L1).
    assert (B1 : below L1 (S f)) by now apply below_top. assert (B2 : below L2 (S (S f))) by now apply below_top.
    match goal with |- match bind ?x ?y with _ => _ end => set (prog := x); set (cont := y) end.
    assert (Go : goes E (hbind
        (let! buf := load (Block (S f)) in
        let! (_, buf') := m_to_ascii_4i E U junk (Some (Caller (words data))) (Some buf) 0 in
        let! _ := match buf' with Some b => fill (S f) b | None => ret tt end in
        let! out := loop (fun f => use E (fun o => m_to_ascii_4i2 E U junk (Some (Caller (words data))) o f)) fuzz_flags out in
        let! _ := fill f (words data ++ [0]) in
        let! _ := loop (fun g => use E (fun o => m_to_ascii_4z E U junk (Some (Block f)) o g)) fuzz_flags out in
        let! _ := free E (Some (S f)) in
        let! _ := free E (Some f) in
        ret tt) k) (Heap L2 (S (S f)) (S (S c)) e) Q).
    { clear prog cont. apply goes_assoc. apply goes_bind, goes_run, (run_load _ _ _ _ _ (garbage 64)); [apply alive_top|]. split; [cbn; lia|].
      apply goes_assoc. change (Some (Caller (words data))) with (given (Some (words data))) at 1.
      apply goes_4i; [now intros l [= <-]|exact B2|intros a [= <-]; unfold zlen; rewrite GA; cbn; lia|].
      intros rc o' f3 c3 e3 G3 H3 B3. apply goes_assoc.
      assert (Ri : forall b : list Z, exists b', forall f4 c4 e4 (kk : unit -> M A), below L2 f4 ->
         (forall x, goes E (kk tt) (Heap ((S f, x) :: L1) f4 c4 e4) Q) ->
         goes E (hbind (match o' with Some b => fill (S f) b | None => ret tt end) kk) (Heap L2 f4 c4 e4) Q /\ b' = b).
      { intros b. exists b. intros f4 c4 e4 kk B4 HH. split; [|reflexivity]. destruct o' as [x|].
        - apply goes_bind, goes_run, (run_fill _ _ _ _ _ _ _ (garbage 64)); [exact (alive_top (S f) (garbage 64) L1)|]. split; [cbn; lia|].
          cbn [L2 fill_block]. rewrite Nat.eqb_refl. apply HH.
        - apply goes_return. apply HH. }
      destruct (Ri []) as (b' & Ri'). apply Ri'; [exact B3|]. clear Ri Ri' b'. intros x.
      assert (B3' : below ((S f, x) :: L1) f3) by (intros n y [I|I]; [injection I as <- <-; apply (B3 (S f) (garbage 64)); now left|apply (B3 n y); now right]).
      apply goes_assoc. apply goes_loop; [exact B3'| |].
      { intros fl out1 f4 c4 e4 Q4 B4 H4. apply run_use; [|exact B4|exact H4]. right. eexists.
        apply (neat_4i2 E U K junk (Caller (words data)) (words data)); [exact SW|reflexivity]. }
      intros out1 f4 c4 e4 G4 H4 B4. apply goes_assoc. 
      apply goes_bind, goes_run, (run_fill _ _ _ _ _ _ _ (garbage (S (length (words data))))).
      { unfold L1. cbn [find_block]. replace (Nat.eqb (S f) f) with false by (symmetry; apply Nat.eqb_neq; lia). now rewrite Nat.eqb_refl. }
      split; [cbn; lia|]. unfold L1 at 1. cbn [fill_block]. replace (Nat.eqb (S f) f) with false by (symmetry; apply Nat.eqb_neq; lia). rewrite Nat.eqb_refl.
      set (L3 := (S f, x) :: (f, words data ++ [0]) :: L).
      assert (B4' : below L3 f4).
      { intros n y [I|[I|I] ]; [injection I as <- <-; apply (B4 (S f) x); now left| |apply (B4 n y); right; now right].
        injection I as <- <-. apply (B4 f (garbage (S (length (words data))))). right. now left. }
      apply goes_assoc. apply goes_loop; [exact B4'| |].
      { intros fl out2 f5 c5 e5 Q5 B5 H5. apply run_use; [|exact B5|exact H5]. right. eexists.
        apply (neat_4z E U K junk (Block f) (words data ++ [0])).
        - pose proof (words_len data). unfold zlen in *. rewrite app_length. cbn [length]. lia.
        - unfold L3. cbn [alive find_block]. replace (Nat.eqb (S f) f) with false by (symmetry; apply Nat.eqb_neq; lia). now rewrite Nat.eqb_refl. }
      intros out2 f5 c5 e5 G5 H5 B5. apply goes_assoc. unfold L3 in *. apply goes_free_top; [exact B5|]. intros c6 e6 G6 B6.
      apply goes_assoc. apply goes_free_top; [exact B6|]. intros c7 e7 G7 B7. apply goes_return. apply H; [lia|lia|exact B7]. }
    unfold goes, hbind in Go. fold L1 in Go. fold L2 in Go.
    match type of Go with match ?t with _ => _ end => change (bind prog cont) with t; destruct t as [ [? ?]|s| |]; auto end. destruct Go as (X & n & G & F). split; [exact X|]. exists n. cbn [calls] in G. split; [lia|exact F].
  Qed.

  Theorem ascii_harmless : forall data, bytes data -> harmless E (fuzz_to_ascii E U Lo junk out0 garbage data).
  Proof.
    intros data BY. apply harmless_of. intros L f c e B. unfold fuzz_to_ascii.
    destruct (1024 <? zlen data) eqn:Z0; [now apply goes_ret|]. apply Z.ltb_ge in Z0.
    apply goes_alloc; [exact B|]. clear B. intros B.
    set (L1 := (f, data ++ [0]) :: L) in *. cbv zeta.
    assert (R : reads (Block f) L1 (upto0 data)) by (rewrite <- (upto0_term data); apply reads_top).
    assert (BO : byte_ok (upto0 data)) by (apply bytes_ok; [exact BY|lia]).
    assert (Fin : forall f6 c6 e6, below L1 f6 -> goes E (let! _ := free E (Some f) in ret 0) (Heap L1 f6 c6 e6) (fun st h' => st = 0 /\ live h' = L)).
    { intros f6 c6 e6 B6. apply goes_free_top; [exact B6|]. intros c7 e7 _ _. now apply goes_ret. }
    assert (Go : forall out f' c' e', below L1 f' -> goes E
      (let! out := loop (fun fl out =>
        let! out := use E (fun o => m_to_ascii_8z E U junk (Some (Block f)) o fl) out in
        use E (fun o => m_to_ascii_lz E U Lo junk (Some (Block f)) o fl) out) fuzz_flags out in
      let! _ := (if zlen data mod 4 =? 0 then ascii_wide E U junk garbage data out else ret tt) in
      let! _ := free E (Some f) in
      ret 0) (Heap L1 f' c' e') (fun st h' => st = 0 /\ live h' = L)).
    { intros out f' c' e' B'. apply goes_loop; [exact B'| |].
      { intros fl out1 f4 c4 e4 Q4 B4 H4. apply run_bind, run_use; [right; eexists; apply (neat_8z E U K junk (Block f) (upto0 data)); auto|exact B4|].
        intros out2 f5 c5 e5 G5 H5. apply run_use; [right; eexists; apply (neat_lz E U K Lo LO junk (Block f) (upto0 data)); auto|now apply (below_mono L1 f4)|].
        intros out3 f6 c6 e6 G6 H6. apply H4; lia. }
      intros out1 f4 c4 e4 G4 H4 B4. apply goes_if; [intros _|intros _; now apply Fin].
      apply goes_ascii_wide; [exact Z0|exact B4|]. intros. now apply Fin. }
    apply goes_if; [intros _|intros _; now apply Go].
    apply (goes_ascii_nulls f (upto0 data)); [exact R|exact BO|exact B|]. intros. now apply Go.
  Qed.

  (** ** ToUnicode *)
  Lemma goes_44i : forall i arr n L f c e A (k : Z * option (list Z) * option Z -> M A) (Q : A -> heap -> Prop), wide_arg i -> below L f ->
    match arr, n with Some a, Some n => 0 <= n <= zlen a | _, _ => True end ->
    (forall rc a' n' f' c' e', (f <= f')%nat -> (c <= c')%nat -> below L f' -> goes E (k (rc, a', n')) (Heap L f' c' e') Q) ->
    goes E (hbind (m_to_unicode_44i E junk (given i) arr n 0) k) (Heap L f c e) Q.
  Proof.
    intros i arr n L f c e A k Q W B AO H. destruct i as [l|].
    - apply goes_bind, goes_run. apply (wp_44i E _ None _ l); [exact B|reflexivity| | |].
      + apply unicode_44i_safe; [now apply W|exact AO].
      + intros rc o' n' f' c' e' G1 G2 _. cbn [calls]. split; [lia|]. apply H; auto. now apply (below_mono L f).
      + intros rc f' c' e' G1 G2 _. cbn [calls]. split; [lia|]. apply H; auto. now apply (below_mono L f).
    - cbn [given option_map m_to_unicode_44i]. apply goes_return. now apply H.
  Qed.
  Lemma goes_unicode_nulls : forall d s L f c e A (k : option nat -> M A) (Q : A -> heap -> Prop), plentiful E ->
    reads (Block d) L s -> byte_ok s -> below L f -> (d < f)%nat ->
    (forall out' f' c' e', (f <= f')%nat -> (c <= c')%nat -> below L f' -> goes E (k out') (Heap L f' c' e') Q) ->
    goes E (hbind (unicode_nulls E Lo junk out0 garbage (Some (Block d))) k) (Heap L f c e) Q.
  Proof.
    intros d s L f c e A k Q PL R BO B DF H. unfold unicode_nulls.
    u null_lzlz. o null_lzlz. o neat_lzlz.
    assert (AQ : forall x L f c e B0 (kk : option nat -> M B0) (Q0 : B0 -> heap -> Prop),
      goes E (kk (Some f)) (Heap ((f, x) :: L) (S f) (S c) e) Q0 -> goes E (hbind (acquire E (Some x)) kk) (Heap L f c e) Q0).
    { intros x L0 f0 c0 e0 B0 kk Q0 G. apply goes_bind, goes_run. unfold run, acquire. cbn [calls live fresh errno]. rewrite PL. split; [cbn; lia|exact G]. }
    apply goes_assoc, AQ. apply goes_assoc.
    match goal with X : below L ?g |- goes E _ (Heap ((?g, _) :: L) _ ?cc _) _ => rename g into f1; rename X into BB1 end.
    apply goes_bind, goes_run, (run_fill _ _ _ _ _ _ _ (garbage 1)); [apply alive_top|]. split; [cbn; lia|].
    cbn [fill_block]. rewrite Nat.eqb_refl. assert (BB2 := below_top L f1 [0] BB1).
    u null_4z4z. o null_4z4z. cbn [option_map].
    apply goes_assoc; apply goes_only; [right; eexists; apply (neat_4z4z E junk (Block f1) [0]); [reflexivity|apply alive_top]|assumption|intros].
    apply goes_assoc, goes_free_top; [assumption|]. intros.
    u null_8z4z. o null_8z4z. o neat_8z4z.
    apply goes_assoc, AQ. apply goes_assoc, goes_assoc.
    apply goes_bind, goes_run, (run_load _ _ _ _ _ []); [apply alive_top|]. split; [cbn; lia|]. apply goes_return.
    match goal with X : below L ?g |- goes E _ (Heap ((?g, _) :: L) _ ?cc _) _ => rename g into f9; rename X into BB9 end.
    assert (BB10 := below_top L f9 [] BB9).
    apply goes_assoc. cbn [m_to_unicode_44i]. apply goes_return. apply goes_assoc, goes_return.
    apply goes_assoc, goes_free_top; [assumption|]. intros. apply goes_return. apply H; [lia|lia|].
    apply (below_mono L f9); [assumption|lia].
  Qed.

  Lemma goes_unicode_wide : forall data L f c e A (k : unit -> M A) (Q : A -> heap -> Prop), zlen data <= 1024 -> below L f ->
    (forall f' c' e', (f <= f')%nat -> (c <= c')%nat -> below L f' -> goes E (k tt) (Heap L f' c' e') Q) ->
    goes E (hbind (unicode_wide E junk garbage data) k) (Heap L f c e) Q.
  Proof.
    intros data L f c e A k Q Z0 B H. pose proof (small_wide data Z0) as SW. unfold unicode_wide.
    apply goes_assoc. apply goes_alloc; [exact B|]. intros B1. set (L1 := (f, garbage (length (words data))) :: L) in *.
    apply goes_assoc. apply goes_bind, goes_run, (run_load _ _ _ _ _ (garbage (length (words data)))); [apply alive_top|]. split; [cbn; lia|].
    apply goes_assoc. change (Some (Caller (words data))) with (given (Some (words data))).
    apply goes_44i; [now intros l [= <-]|exact B1|unfold zlen; rewrite GA; lia|].
    intros rc a' n' f' c' e' G1 G2 B2. apply goes_assoc.
    assert (Fin : forall x, goes E (hbind (let! _ := free E (Some f) in ret tt) k) (Heap ((f, x) :: L) f' c' e') Q).
    { intros x. apply goes_assoc, goes_free_top; [intros n y [I|I]; [injection I as <- <-; apply (B2 f (garbage (length (words data)))); now left|apply (B2 n y); now right]|].
      intros c3 e3 G3 B3. apply goes_return, H; [lia|lia|exact B3]. }
    destruct a' as [x|].
    - apply goes_bind, goes_run, (run_fill _ _ _ _ _ _ _ (garbage (length (words data)))); [apply (alive_top f _ L)|]. split; [cbn; lia|].
      unfold L1. cbn [fill_block]. rewrite Nat.eqb_refl. apply Fin.
    - apply goes_return. apply Fin.
  Qed.

  Theorem unicode_harmless : forall data, bytes data -> data <> [] \/ plentiful E -> harmless E (fuzz_to_unicode E Lo version junk out0 garbage data).
  Proof.
    intros data BY PL. apply harmless_of. intros L f c e B. unfold fuzz_to_unicode.
    destruct (1024 <? zlen data) eqn:Z0; [now apply goes_ret|]. apply Z.ltb_ge in Z0.
    apply goes_alloc; [exact B|]. clear B. intros B.
    set (L1 := (f, data ++ [0]) :: L) in *. cbv zeta.
    assert (R : reads (Block f) L1 (upto0 data)) by (rewrite <- (upto0_term data); apply reads_top).
    assert (BO : byte_ok (upto0 data)) by (apply bytes_ok; [exact BY|lia]).
    assert (Fin : forall f6 c6 e6, below L1 f6 -> goes E (let! _ := free E (Some f) in ret 0) (Heap L1 f6 c6 e6) (fun st h' => st = 0 /\ live h' = L)).
    { intros f6 c6 e6 B6. apply goes_free_top; [exact B6|]. intros c7 e7 _ _. now apply goes_ret. }
    assert (Last : forall out f' c' e', below L1 f' -> goes E
      (let! _ := use E (fun o => m_to_unicode_lzlz E Lo junk (Some (Block f)) o 0) out in
       let! _ := (if zlen data mod 4 =? 0 then unicode_wide E junk garbage data else ret tt) in
       let! _ := free E (Some f) in ret 0) (Heap L1 f' c' e') (fun st h' => st = 0 /\ live h' = L)).
    { intros out f' c' e' B'. apply goes_use; [right; eexists; now apply (neat_lzlz E Lo LO junk (Block f) (upto0 data))|exact B'|].
      intros out1 f4 c4 e4 G4 H4 B4. apply goes_if; [intros _|intros _; now apply Fin]. apply goes_unicode_wide; [exact Z0|exact B4|].
      intros. now apply Fin. }
    assert (Go : forall (x : bool) out f' c' e', below L1 f' -> goes E
      (let! s := cstr (Block f) in
       let! _ := (if match check_version version (Some s) with Some _ => false | None => x end
                  then let! p := acquire E (Some (garbage 1)) in free E p else ret tt) in
       let! _ := use E (fun o => m_to_unicode_lzlz E Lo junk (Some (Block f)) o 0) out in
       let! _ := (if zlen data mod 4 =? 0 then unicode_wide E junk garbage data else ret tt) in
       let! _ := free E (Some f) in ret 0) (Heap L1 f' c' e') (fun st h' => st = 0 /\ live h' = L)).
    { intros x out f' c' e' B'. apply goes_bind, goes_run, (run_cstr _ _ _ _ _ (upto0 data)); [exact R|]. split; [cbn; lia|].
      apply goes_if; [intros _|intros _; now apply Last]. apply goes_assoc. apply goes_bind, goes_run. unfold run, acquire. cbn [calls live fresh errno].
      destruct (fails E c' _); (split; [cbn; lia|]).
      - apply goes_bind, goes_run, run_free_null. split; [cbn; lia|]. now apply Last.
      - apply goes_bind, goes_run, run_free_top. split; [cbn; lia|]. apply Last. apply (below_mono L1 f'); [exact B'|lia]. }
    destruct (zlen data =? 0) eqn:Z1.
    - apply goes_assoc. destruct PL as [N|PL].
      + exfalso. apply Z.eqb_eq in Z1. destruct data; [now apply N|unfold zlen in Z1; cbn [length] in Z1; lia].
      + apply (goes_unicode_nulls f (upto0 data)); [exact PL|exact R|exact BO|exact B|lia|]. intros. apply goes_return. now apply Go.
    - apply goes_return. now apply Go.
  Qed.
End Fuzz.
