(** The fuzz targets and examples never misuse memory. *)
From Verif Require Import Base Uenv Utf8 Bidi Context Idna Puny Lookup Api Register PunyBase SpecUtf8 Utf8Proofs SpecNfc SpecLookup Cli SpecCli LookupProofs LookupTr46 NonZero NoFail
  ApiProofs RegisterProofs RegisterTop Heap SpecHeap HeapProofs HeapRun HeapApi HeapTop Version Client SpecClient.

Section Client.
  Variable E : allocator.

  (** As [run], but the program may be stopped by an assert. *)
  Definition goes {A} (m : M A) (h : heap) (Q : A -> heap -> Prop) : Prop :=
    match m h with
    | Ok (a, h') => Q a h'
    | Fail s => s = SIGABRT /\ exists n, (calls h <= n)%nat /\ exists k, fails E n k = true
    | _ => False
    end.
  Lemma goes_run : forall A (m : M A) h Q, run m h Q -> goes m h Q.
  Proof. intros A m h Q. unfold run, goes. destruct (m h) as [[a h']| | |]; tauto. Qed.
  Lemma goes_ret : forall A (a : A) h (Q : A -> heap -> Prop), Q a h -> goes (ret a) h Q.
  Proof. intros. exact H. Qed.
  Lemma goes_bind : forall A B (m : M A) (k : A -> M B) h Q,
    goes m h (fun a h' => (calls h <= calls h')%nat /\ goes (k a) h' Q) -> goes (hbind m k) h Q.
  Proof.
    intros A B m k h Q. unfold goes, hbind. destruct (m h) as [[a h']| | |]; cbn [bind]; auto.
    intros (G & H). destruct (k a h') as [[b h2]| | |]; auto. destruct H as (X & n & H1 & H2). split; [exact X|]. exists n. split; [lia|exact H2].
  Qed.

  (** From the heap with blocks [L] to a later one with blocks [L']. *)
  Definition later {A} (L' : list (nat * list Z)) (f c : nat) (Q : A -> heap -> Prop) (a : A) : Prop :=
    forall f' c' e', (f <= f')%nat -> (c <= c')%nat -> Q a (Heap L' f' c' e').

  Lemma goes_new : forall l L f c e (Q : nat -> heap -> Prop),
    Q f (Heap ((f, l) :: L) (S f) (S c) e) -> goes (new E l) (Heap L f c e) Q.
  Proof.
    intros l L f c e Q H. unfold new, acquire, goes, hbind. cbn [calls live fresh errno]. destruct (fails E c _) eqn:F.
    - cbn [bind]. unfold abort. split; [reflexivity|]. exists c. split; [lia|eexists; exact F].
    - cbn [bind]. exact H.
  Qed.

  (** A call that computes [m] with the blocks [L] in use. *)
  Definition neat (F : slot -> M (Z * slot)) (m : out (list Z)) (L : list (nat * list Z)) : Prop :=
    forall o f c e Q, below L f -> takes E m o L f c Q -> run (F o) (Heap L f c e) Q.
  Definition nullish (F : slot -> M (Z * slot)) : Prop :=
    forall o L f c e, exists c' e', F o (Heap L f c e) = Ok (IDN2_OK, put_slot o None, Heap L f c' e') /\ (c <= c')%nat.
  Definition fine (F : slot -> M (Z * slot)) (L : list (nat * list Z)) : Prop := nullish F \/ exists m, neat F m L.

  Lemma run_use : forall F L out f c e (Q : option nat -> heap -> Prop), fine F L -> below L f ->
    (forall out', later L f c Q out') -> run (use E F out) (Heap L f c e) Q.
  Proof.
    intros F L out f c e Q [N|(m & D)] B H; unfold use; apply run_bind.
    - destruct (N (Some out) L f c e) as (c' & e' & R & G). unfold run. rewrite R. cbn [put_slot].
      change (IDN2_OK =? IDN2_OK) with true. apply run_bind. apply run_free_null. apply run_ret, H; lia.
    - apply D; [exact B|]. split; [|split].
      + intros r f' c' e' X. discriminate X.
      + intros r j n f' c' e' _ G1 G2 G3 _. change (IDN2_OK =? IDN2_OK) with true. cbn match.
        apply run_bind. apply run_free_top. apply run_ret, H; lia.
      + intros rc f' c' e' G1 G2 (NZ & _). apply Z.eqb_neq in NZ. rewrite NZ. apply run_ret, H; lia.
  Qed.
  Lemma run_only : forall F L f c e (Q : unit -> heap -> Prop), fine F L -> below L f ->
    later L f c Q tt -> run (only F) (Heap L f c e) Q.
  Proof.
    intros F L f c e Q [N|(m & D)] B H; unfold only; apply run_bind.
    - destruct (N None L f c e) as (c' & e' & R & G). unfold run at 1. rewrite R. apply run_ret, H; lia.
    - apply D; [exact B|]. split; [|split].
      + intros r f' c' e' _ G1 G2 _. apply run_ret, H; lia.
      + intros r j n f' c' e' X. discriminate X.
      + intros rc f' c' e' G1 G2 _. apply run_ret, H; lia.
  Qed.
  Lemma run_loop : forall body L fl out f c e (Q : option nat -> heap -> Prop), below L f ->
    (forall fl out f c e (Q : option nat -> heap -> Prop), below L f -> (forall out', later L f c Q out') -> run (body fl out) (Heap L f c e) Q) ->
    (forall out', later L f c Q out') -> run (loop body fl out) (Heap L f c e) Q.
  Proof.
    intros body L fl. induction fl as [|x r IH]; intros out f c e Q B HB H; cbn [loop].
    - apply run_ret, H; lia.
    - apply run_bind. apply HB; [exact B|]. intros out' f' c' e' Gf Gc. apply IH; [now apply (below_mono L f)|exact HB|].
      intros out2 f2 c2 e2 G1 G2. apply H; lia.
  Qed.

  Variable U : uenv.
  Hypothesis K : nfc_ok U.
  Variable Lo : locale.
  Hypothesis LO : locale_ok Lo.
  Variable junk : option nat.

  (** ** The calls *)
  Definition byte_ok (s : list Z) : Prop := c_string s /\ zlen s < two64.

  Lemma neat_8z : forall a s fl L, byte_ok s -> reads a L s -> neat (fun o => m_to_ascii_8z E U junk (Some a) o fl) (lookup_u8 U s fl) L.
  Proof. intros a s fl L (C & B) R o f c e Q BL T. apply (wp_lookup_u8 E U _ _ s); auto. now apply lookup_safe. Qed.
  Definition ul_out s fl := match from_locale Lo s with None => Fail IDN2_ICONV_FAIL | Some b => lookup_u8 U b (Z.lor fl IDN2_NFC_INPUT) end.
  Lemma neat_lz : forall a s fl L, reads a L s -> neat (fun o => m_to_ascii_lz E U Lo junk (Some a) o fl) (ul_out s fl) L.
  Proof.
    intros a s fl L R o f c e Q BL T. apply (wp_lookup_ul E U _ _ _ s); auto; [now apply loc_no0|].
    fold (ul_out s fl). unfold ul_out. destruct (from_locale Lo s) as [b|] eqn:X; [|exact I]. apply LO in X. now apply lookup_safe.
  Qed.
  Lemma neat_4i2 : forall a l fl L, zlen l < 4611686018427387904 -> alive a L l ->
    neat (fun o => m_to_ascii_4i2 E U junk (Some a) o fl) (utf8_in l (fun s => lookup_u8 U s fl)) L.
  Proof.
    intros a l fl L B R o f c e Q BL T. apply (wp_4i2 E U _ _ l); auto. apply utf8_in_safe; [exact B|]. intros. now apply lookup_safe.
  Qed.
  Lemma neat_4z : forall a l fl L, zlen l < 4611686018427387904 -> alive a L l ->
    neat (fun o => m_to_ascii_4z E U junk (Some a) o fl) (utf8_in (upto0 l) (fun s => lookup_u8 U s fl)) L.
  Proof.
    intros a l fl L B R o f c e Q BL T. apply (wp_4z E U _ _ l); auto. apply utf8_in_safe; [pose proof (upto0_zlen l); lia|].
    intros. now apply lookup_safe.
  Qed.
  Lemma neat_8z4z : forall a s fl L, byte_ok s -> reads a L s -> neat (fun o => m_to_unicode_8z4z E (Some a) o fl) (unicode s) L.
  Proof. intros a s fl L (C & B) R o f c e Q BL T. apply (wp_8z4z E _ s); auto. now apply unicode_safe. Qed.
  Lemma neat_4z4z : forall a l fl L, zlen l < 4611686018427387904 -> alive a L l ->
    neat (fun o => m_to_unicode_4z4z E junk (Some a) o fl) (utf8_in (upto0 l) unicode) L.
  Proof.
    intros a l fl L B R o f c e Q BL T. apply (wp_4z4z E _ _ l); auto. apply utf8_in_safe; [pose proof (upto0_zlen l); lia|].
    intros. now apply unicode_safe.
  Qed.
  Lemma neat_8z8z : forall a s fl L, byte_ok s -> reads a L s ->
    neat (fun o => m_to_unicode_8z8z E junk (Some a) o fl) (let* r := unicode s in utf8_out r) L.
  Proof. intros a s fl L (C & B) R o f c e Q BL T. apply (wp_8z8z E _ _ s); auto. now apply unicode8_safe. Qed.
  Definition lzlz_out s := match from_locale Lo s with
    | None => Fail IDN2_ICONV_FAIL | Some b => let* b := (let* r := unicode b in utf8_out r) in locale_out Lo b end.
  Lemma neat_lzlz : forall a s fl L, reads a L s -> neat (fun o => m_to_unicode_lzlz E Lo junk (Some a) o fl) (lzlz_out s) L.
  Proof.
    intros a s fl L R o f c e Q BL T. apply (wp_lzlz E _ _ _ s); auto; [now apply loc_no0|].
    fold (lzlz_out s). unfold lzlz_out. destruct (from_locale Lo s) as [b|] eqn:X; [|exact I]. apply LO in X. destruct X.
    apply safe_bind; [now apply unicode8_safe|]. intros r _. unfold locale_out. destruct (to_locale Lo r); exact I.
  Qed.
  Definition reg_u_out s fl := match from_locale Lo s with None => Fail IDN2_ICONV_FAIL | Some b => reg_ulabel U b (Z.lor fl IDN2_NFC_INPUT) end.
  Lemma neat_reg_u : forall a s fl L, reads a L s -> neat (fun o => m_register_ul E U Lo junk (Some a) None o fl) (reg_u_out s fl) L.
  Proof.
    intros a s fl L R o f c e Q B T. unfold m_register_ul. unfold reg_u_out in T.
    apply run_bind, (run_cstr _ L f c e s); [exact R|]. apply run_bind, run_acquire.
    - intros F. apply run_bind, run_or, run_ret. apply (takes_bad E _ _ _ _ _ _ _ _ _ _ T); [lia|lia|now_failed].
    - intros N. rewrite N in *. apply run_bind, run_or, run_ret. apply (takes_bad E _ _ _ _ _ _ _ _ _ _ T); [lia|lia|now_refused]. reflexivity.
    - intros b N. rewrite N in *.
      assert (B' : below ((f, b) :: L) (Datatypes.S f)) by (apply below_cons; [apply (below_mono L f); [exact B|lia]|lia]).
      assert (R' : reads (Block f) ((f, b) :: L) b).
      { exists b. cbn [find_block]. rewrite Nat.eqb_refl. split; [reflexivity|]. apply upto0_id. now apply (loc_no0 Lo LO s). }
      cbn [m_register_u8]. apply run_bind, (wp_reg_ulabel E U _ _ b); auto.
      + apply LO in N. now apply reg_u_safe.
      + apply (takes_then_free E _ _ _ _ _ f c); auto.
  Qed.
  Lemma neat_reg_a : forall a s fl L, byte_ok s -> reads a L s -> neat (fun o => m_register_ul E U Lo junk None (Some a) o fl) (reg_alabel U None s) L.
  Proof.
    intros a s fl L (C & _) R o f c e Q B (T1 & T2 & T3). unfold m_register_ul. cbn [m_register_u8].
    apply run_bind, (wp_reg_alabel E U _ _ None _ s); [exact B|exact R|exact I|now apply reg_a_safe|]. split; [|split].
    - intros. apply run_bind, run_free_null, run_ret. apply (T1 r); auto.
    - intros. apply run_bind, run_free_null, run_ret. apply (T2 r j); auto.
    - intros rc f' c' e' G1 G2 V. apply run_bind, run_free_null, run_ret. apply T3; [lia|lia|]. apply (bad_widen E _ _ _ _ _ _ _ _ _ V); auto.
  Qed.

  Lemma null_8z : forall fl, nullish (fun o => m_to_ascii_8z E U junk None o fl).
  Proof. intros fl o L f c e. eexists _, _. split; [reflexivity|cbn; lia]. Qed.
  Lemma null_lz : forall fl, nullish (fun o => m_to_ascii_lz E U Lo junk None o fl).
  Proof. intros fl o L f c e. eexists _, _. split; [reflexivity|cbn; lia]. Qed.
  Lemma null_4i2 : forall fl, nullish (fun o => m_to_ascii_4i2 E U junk None o fl).
  Proof. intros fl o L f c e. eexists _, _. split; [reflexivity|cbn; lia]. Qed.
  Lemma null_4z : forall fl, nullish (fun o => m_to_ascii_4z E U junk None o fl).
  Proof. intros fl o L f c e. eexists _, _. split; [reflexivity|cbn; lia]. Qed.
  Lemma null_lzlz : forall fl, nullish (fun o => m_to_unicode_lzlz E Lo junk None o fl).
  Proof. intros fl o L f c e. eexists _, _. split; [reflexivity|cbn; lia]. Qed.
  Lemma null_4z4z : forall fl, nullish (fun o => m_to_unicode_4z4z E junk None o fl).
  Proof. intros fl o L f c e. eexists _, _. split; [reflexivity|cbn; lia]. Qed.
  Lemma null_8z4z : forall fl, nullish (fun o => m_to_unicode_8z4z E None o fl).
  Proof. intros fl o L f c e. eexists _, _. split; [reflexivity|cbn; lia]. Qed.
  Lemma null_reg : forall fl, nullish (fun o => m_register_ul E U Lo junk None None o fl).
  Proof. intros fl o L f c e. eexists _, _. split; [reflexivity|cbn; lia]. Qed.
End Client.
