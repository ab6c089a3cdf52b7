(** The functions of the library under any schedule. *)
From Coq Require Import Permutation.
From Verif Require Import Base Uenv Api Register SpecNfc SpecCli SpecHeap Heap HeapTop Thread ThreadCode ThreadProofs SpecThread.

Section Jobs.
  Variable U : uenv.
  Hypothesis K : nfc_ok U.

  Lemma coded_string : forall m, coded m -> coded (fun E => as_string (m E)).
  Proof. intros m C. unfold as_string. apply (coded_bind _ _ m (fun _ x => let '(rc, o) := x in ret (AString rc o))); auto. intros [rc o]. apply coded_ret. Defined.
  Lemma coded_string_call : forall L junk f i o flags, coded (fun E => string_call E U L junk f i o flags).
  Proof.
    intros L junk f i o flags. destruct f; cbn [string_call].
    - apply c_m_lookup_u8.
    - apply c_m_lookup_ul.
    - apply c_m_to_ascii_8z.
    - apply c_m_to_ascii_lz.
    - apply c_m_to_unicode_8z4z.
    - apply c_m_to_unicode_8z8z.
    - apply c_m_to_unicode_8zlz.
    - apply c_m_to_unicode_lzlz.
    - apply c_m_to_ascii_4z.
    - apply c_m_to_ascii_4i2.
    - apply c_m_to_unicode_4z4z.
  Defined.
  Lemma coded_loop : forall L junk names, coded (fun E => loop E U L junk names).
  Proof.
    intros L junk names. induction names as [|((f, i), flags) rest IH]; cbn [loop]; [apply coded_ret|].
    apply (coded_bind _ _ (fun E => string_call E U L junk f (given i) (Some None) flags) (fun E x => let '(rc, o) := x in
      let! s := match o with Some (Some n) => let! s := load (Block n) in ret (Some s) | _ => ret None end in
      let! _ := m_idn2_free E (of_slot o) in
      let! rs := loop E U L junk rest in
      ret ((rc, s) :: rs))); [apply coded_string_call|]. intros [rc o].
    apply (coded_bind _ _ (fun _ => match o with Some (Some n) => let! s := load (Block n) in ret (Some s) | _ => ret None end) (fun E s =>
      let! _ := m_idn2_free E (of_slot o) in
      let! rs := loop E U L junk rest in
      ret ((rc, s) :: rs))).
    { destruct o as [[n|]|]; [apply (coded_bind _ _ (fun _ => load (Block n)) (fun _ s => ret (Some s))); [apply coded_load|intros s; apply coded_ret]|apply coded_ret|apply coded_ret]. }
    intros s. unfold m_idn2_free. apply (coded_bind _ _ (fun E => free E (of_slot o)) (fun E _ =>
      let! rs := loop E U L junk rest in
      ret ((rc, s) :: rs))); [apply coded_free|]. intros _.
    apply (coded_bind _ _ (fun E => loop E U L junk rest) (fun E rs => ret ((rc, s) :: rs))); [exact IH|]. intros rs. apply coded_ret.
  Defined.
  Lemma job_coded : forall j, coded (do_job U j).
  Proof.
    intros [[f i o flags|u a o flags|u a o flags|i o flags|i arr n flags|names] L junk]; unfold do_job; cbn [asked charset SpecThread.junk].
    - apply coded_string. apply coded_string_call.
    - apply coded_string. apply c_m_register_u8.
    - apply coded_string. apply c_m_register_ul.
    - apply (coded_bind _ _ (fun E => m_to_ascii_4i E U junk (given i) o flags) (fun _ x => let '(rc, a) := x in ret (AArray rc a)));
        [apply c_m_to_ascii_4i|]. intros [rc a]. apply coded_ret.
    - apply (coded_bind _ _ (fun E => m_to_unicode_44i E junk (given i) arr n flags) (fun _ x => let '(rc, a, n) := x in ret (ACounted rc a n)));
        [apply c_m_to_unicode_44i|]. intros [[rc a] n']. apply coded_ret.
    - apply (coded_bind _ _ (fun E => loop E U L junk names) (fun _ rs => ret (AMany rs))); [apply coded_loop|]. intros rs. apply coded_ret.
  Defined.
  Theorem codes_exist : forall j, exists c, is_code c (do_job U j).
  Proof. intros j. exists (text (job_coded j)). apply text_ok. Qed.

  (** The string functions: C46. *)
  Lemma string_all : forall E L junk f i flags, locale_ok L -> string_arg f i ->
    (keeps_errno E -> frugal E (fun o => string_call E U L junk f (given i) o flags) (fun c => string_result U L f i c flags)) /\
    tidy (fun o => string_call E U L junk f (given i) o flags).
  Proof.
    intros E L junk f i flags LO HA. unfold string_arg in HA.
    destruct (wide_function f) eqn:W.
    - assert (IN : In (string_call E U L junk f, string_result U L f) (wide_functions E U junk None)) by (destruct f; try discriminate; cbn; auto).
      destruct (wide_sound E U K junk None _ _ i flags IN HA) as (X & Y & _). split; auto.
    - assert (IN : In (string_call E U L junk f, string_result U L f) (byte_functions E U L junk None)) by (destruct f; try discriminate; cbn; auto 10).
      destruct (bytes_sound E U K L junk None _ _ i flags LO IN HA) as (X & Y & _). split; auto.
  Qed.

  Lemma begin_ok : forall A (t : thread A), heap_ok (begin t).
  Proof. intros A t n l []. Qed.

  Lemma drop_first : forall (n : nat) (r : list Z) l, drop_block n ((n, r) :: l) = l.
  Proof. intros n r l. cbn. rewrite Nat.eqb_refl. reflexivity. Qed.
  Lemma find_first : forall (n : nat) (r : list Z) l, find_block n ((n, r) :: l) = Some r.
  Proof. intros n r l. cbn. rewrite Nat.eqb_refl. reflexivity. Qed.
  Lemma loop_runs : forall E L junk names h, locale_ok L -> (forall f i flags, In (f, i, flags) names -> string_arg f i) -> heap_ok h ->
    exists rs h', loop E U L junk names h = Ok (rs, h') /\ live h' = live h /\ (keeps_errno E ->
      Forall2 (fun x r => let '(f, i, flags) := x in string_result U L f i (Some None) flags = Ok (fst r, Some (snd r)) \/
        ((exists n k, fails E n k = true) /\ r = (IDN2_MALLOC, None))) names rs).
  Proof.
    intros E L junk names. induction names as [|((f, i), flags) rest IH]; intros h LO A HO; cbn [loop].
    - exists [], h. repeat split; auto.
    - pose proof (A f i flags (or_introl eq_refl)) as A1. destruct (string_all E L junk f i flags LO A1) as (FR & TI).
      destruct (TI h (Some None) HO) as (rc & o' & h1 & e & HO1 & X). unfold hbind at 1. rewrite e. cbn [bind].
      assert (Y : exists s h2, (let! s := match o' with Some (Some n) => let! s := load (Block n) in ret (Some s) | _ => ret None end in
        let! _ := m_idn2_free E (of_slot o') in let! rs := loop E U L junk rest in ret ((rc, s) :: rs)) h1 =
          (let! rs := loop E U L junk rest in ret ((rc, s) :: rs)) h2 /\ live h2 = live h /\ heap_ok h2 /\
          (keeps_errno E -> string_result U L f i (Some None) flags = Ok (rc, Some s) \/ ((exists n k, fails E n k = true) /\ (rc, s) = (IDN2_MALLOC, None)))).
      { destruct X as [(LV & O)|(n & r & -> & _ & -> & UN & LV)].
        - assert (o' = Some None) as -> by (destruct O as [O|(_ & O)]; exact O).
          eexists None, _. split; [reflexivity|]. cbn. split; [exact LV|]. split; [exact HO1|]. intros KE.
          destruct (FR KE h (Some None) HO) as (rc2 & o2 & h3 & e3 & _ & EN). rewrite e in e3. injection e3 as <- <- <-.
          clear - EN. remember (Some None) as oo eqn:EO in EN at 2. destruct EN as [n' r' h1 N R UN' LV'|rc o' h1 R O _ _|h1 _ (n & _ & k & F)].
          * discriminate.
          * subst o'. left. exact R.
          * right. eauto.
        - eexists (Some r), _. split.
          + unfold hbind, load, m_idn2_free, free. cbn [of_slot bind]. rewrite LV, find_first. cbn [bind ret]. rewrite LV, find_first, drop_first. reflexivity.
          + cbn. split; [reflexivity|]. split.
            { intros m l I. cbn in I |- *. apply (HO1 m l). rewrite LV. right. exact I. }
            intros KE. destruct (FR KE h (Some None) HO) as (rc2 & o2 & h3 & e3 & _ & EN). rewrite e in e3. injection e3 as <- <- <-.
            left. clear - EN LV. remember (Some (Some n)) as oo eqn:EO. remember IDN2_OK as k eqn:Ek. destruct EN as [n' r' h1 N R UN' LV'|rc o' h1 R O _ _|h1 _ _].
            * injection EO as ->. rewrite LV in LV'. injection LV' as ->. exact R.
            * destruct O; congruence.
            * discriminate. }
      destruct Y as (s & h2 & -> & LV2 & HO2 & Y). destruct (IH h2 LO (fun f i fl I => A f i fl (or_intror I)) HO2) as (rs & h' & e' & LV & Q).
      unfold hbind. rewrite e'. cbn. exists ((rc, s) :: rs), h'. split; [reflexivity|]. split; [congruence|]. intros KE. constructor; auto.
  Qed.

  (** Alone, every job comes to an end. *)
  Lemma job_runs : forall j E h, job_ok j -> heap_ok h -> exists a h', do_job U j E h = Ok (a, h').
  Proof.
    intros [c L junk] E h (LO & OK) HO. unfold do_job. cbn [asked charset SpecThread.junk] in *.
    destruct c as [f i o flags|u a o flags|u a o flags|i o flags|i arr n flags|names]; unfold as_string, hbind.
    - destruct (proj2 (string_all E L junk f i flags LO OK) h o HO) as (rc & o' & h' & -> & _). do 2 eexists; reflexivity.
    - destruct (proj1 (proj2 (register_sound_mem E U K junk u a flags (proj1 OK) (proj2 OK))) h o HO) as (rc & o' & h' & -> & _). do 2 eexists; reflexivity.
    - destruct (proj1 (proj2 (register_ul_sound E U K L junk u a flags LO (proj1 OK) (proj2 OK))) h o HO) as (rc & o' & h' & -> & _). do 2 eexists; reflexivity.
    - destruct (proj2 (ascii_4i_frugal E U K junk None i o flags (proj1 OK) (proj2 OK)) h HO) as (rc & a & h' & -> & _). do 2 eexists; reflexivity.
    - destruct (proj2 (unicode_44i_frugal E junk None i arr n flags (proj1 OK) (proj2 OK)) h HO) as (rc & a & n' & h' & -> & _). do 2 eexists; reflexivity.
    - destruct (loop_runs E L junk names h LO OK HO) as (rs & h' & -> & _). do 2 eexists; reflexivity.
  Qed.
  Lemma job_secure : forall spoil j t, job_ok j -> ready U j t -> secure (scarce t) spoil (todo t) (begin t).
  Proof. intros spoil j t OK R E _. rewrite <- (R E). apply job_runs; auto. apply begin_ok. Qed.

  Lemma told_of_ending : forall E sc pl P (h : heap) o rc o' h', (sc = false -> plentiful E) -> live h = [] -> ending E P h o rc o' h' ->
    told sc pl P o rc o' (map (at_place pl) (live h')).
  Proof.
    assert (SH : forall h o, live h = [] -> shown h o = option_map (fun _ => None) o) by (intros h [[n|]|] e; cbn; rewrite ?e; reflexivity).
    intros E sc pl P h o rc o' h' PL e H. destruct H as [n r h' N R UN LV|rc o' h' R O LV X|h' LV RO].
    - rewrite LV, e. cbn. apply told_result; auto.
    - rewrite LV, e. rewrite !SH in R by auto. apply told_nothing; auto.
    - rewrite LV, e. apply told_no_memory. destruct sc; auto. destruct RO as (n & _ & k & F). rewrite (PL eq_refl n k) in F. discriminate.
  Qed.
  Lemma job_answers : forall j t0 t E a h, job_ok j -> ready U j t0 -> scarce t = scarce t0 -> (scarce t0 = false -> plentiful E) -> keeps_errno E ->
    finished t a -> alone E (todo t0) (begin t0) = Ok (a, h) -> answers U j t (map (at_place (place t)) (live h)).
  Proof.
    intros [c L junk] t0 t E a h (LO & OK) R SC PL KE FI AL. rewrite <- (R E) in AL. unfold finished in FI. unfold answers. rewrite FI, SC.
    pose proof (begin_ok _ t0) as HO.
    assert (NR : forall h', ran_out E (begin t0) h' -> scarce t0 = true).
    { intros h' (n & _ & k & F). destruct (scarce t0); auto. rewrite (PL eq_refl n k) in F. discriminate. }
    unfold do_job in AL. cbn [asked charset SpecThread.junk] in *.
    destruct c as [f i o flags|u b o flags|u b o flags|i o flags|i arr n flags|names]; unfold as_string, hbind in AL.
    - destruct (proj1 (string_all E L junk f i flags LO OK) KE _ o HO) as (rc & o' & h' & e & _ & EN). rewrite e in AL. cbn in AL. injection AL as <- <-.
      exact (told_of_ending E (scarce t0) (place t) _ (begin t0) _ _ _ _ PL eq_refl EN).
    - destruct (proj1 (register_sound_mem E U K junk u b flags (proj1 OK) (proj2 OK)) KE _ o HO) as (rc & o' & h' & e & _ & EN). rewrite e in AL. cbn in AL. injection AL as <- <-.
      exact (told_of_ending E (scarce t0) (place t) _ (begin t0) _ _ _ _ PL eq_refl EN).
    - destruct (proj1 (register_ul_sound E U K L junk u b flags LO (proj1 OK) (proj2 OK)) KE _ o HO) as (rc & o' & h' & e & _ & EN). rewrite e in AL. cbn in AL. injection AL as <- <-.
      exact (told_of_ending E (scarce t0) (place t) _ (begin t0) _ _ _ _ PL eq_refl EN).
    - destruct (proj1 (ascii_4i_frugal E U K junk None i o flags (proj1 OK) (proj2 OK)) KE _ HO) as (rc & b & h' & e & LV & _ & X). rewrite e in AL. cbn in AL. injection AL as <- <-.
      rewrite LV. split; auto. destruct X as [X|(-> & -> & X)]; auto. right. repeat split; auto. exact (NR _ X).
    - destruct (proj1 (unicode_44i_frugal E junk None i arr n flags (proj1 OK) (proj2 OK)) KE _ HO) as (rc & b & n' & h' & e & LV & _ & X). rewrite e in AL. cbn in AL. injection AL as <- <-.
      rewrite LV. split; auto. destruct X as [X|(-> & -> & -> & X)]; auto. right. repeat split; auto. exact (NR _ X).
    - destruct (loop_runs E L junk names _ LO OK HO) as (rs & h' & e & LV & X). rewrite e in AL. cbn in AL. injection AL as <- <-.
      rewrite LV. split; auto. specialize (X KE). revert X. clear - PL. intros X. induction X as [|((f, i), flags) r ns rs H X IH]; constructor; auto.
      destruct H as [H|((n & k & F) & ->)]; auto. right. split; auto. destruct (scarce t0); auto. rewrite (PL eq_refl n k) in F. discriminate.
  Qed.
  Lemma job_leaves : forall j t0 (t : thread answer) E a h, job_ok j -> ready U j t0 -> 
    finished t a -> alone E (todo t0) (begin t0) = Ok (a, h) -> leaves t (map (at_place (place t)) (live h)).
  Proof.
    intros [c L junk] t0 t E a h (LO & OK) R FI AL. rewrite <- (R E) in AL. unfold finished in FI. unfold leaves. rewrite FI.
    pose proof (begin_ok _ t0) as HO. unfold do_job in AL. cbn [asked charset SpecThread.junk] in *.
    assert (TI : forall F o, tidy F -> as_string (F o) (begin t0) = Ok (a, h) ->
      map (at_place (place t)) (live h) = [] \/ exists n z, Done a = Done (AString IDN2_OK (Some (Some n))) /\ map (at_place (place t)) (live h) = [(place t n, z)]).
    { intros F o T e. destruct (T _ o HO) as (rc & o' & h' & e' & _ & X). unfold as_string, hbind in e. rewrite e' in e. cbn in e. injection e as <- <-.
      destruct X as [(-> & _)|(n & r & -> & _ & -> & _ & ->)]; [left; reflexivity|]. right. exists n, r. split; reflexivity. }
    destruct c as [f i o flags|u b o flags|u b o flags|i o flags|i arr n flags|names].
    - exact (TI _ o (proj2 (string_all E L junk f i flags LO OK)) AL).
    - exact (TI _ o (proj1 (proj2 (register_sound_mem E U K junk u b flags (proj1 OK) (proj2 OK)))) AL).
    - exact (TI _ o (proj1 (proj2 (register_ul_sound E U K L junk u b flags LO (proj1 OK) (proj2 OK)))) AL).
    - unfold hbind in AL. destruct (proj2 (ascii_4i_frugal E U K junk None i o flags (proj1 OK) (proj2 OK)) _ HO) as (rc & b & h' & e & LV & _).
      rewrite e in AL. cbn in AL. injection AL as <- <-. rewrite LV. left. reflexivity.
    - unfold hbind in AL. destruct (proj2 (unicode_44i_frugal E junk None i arr n flags (proj1 OK) (proj2 OK)) _ HO) as (rc & b & n' & h' & e & LV & _).
      rewrite e in AL. cbn in AL. injection AL as <- <-. rewrite LV. left. reflexivity.
    - unfold hbind in AL. destruct (loop_runs E L junk names _ LO OK HO) as (rs & h' & e & LV & _).
      rewrite e in AL. cbn in AL. injection AL as <- <-. rewrite LV. left. reflexivity.
  Qed.

  Section Run.
    Variables (spoil : bool) (js : list job) (G0 : memory) (ts0 : list (thread answer)) (G : memory) (ts : list (thread answer)).
    Hypothesis ST : started U js ts0.
    Hypothesis ND : NoDup (map fst G0).
    Hypothesis RUN : steps spoil (G0, ts0) (G, ts).

    Lemma jobs_secure : all_secure spoil ts0.
    Proof.
      destruct ST as (OK & R). clear RUN. unfold all_secure. revert OK. induction R as [|j t js' ts' R1 R IH]; intros OK; constructor.
      - inversion OK; subst. eapply job_secure; eauto.
      - inversion OK; subst. apply IH; auto. split; auto.
    Qed.
    Lemma never_stuck : forall t, In t ts -> done t \/ exists G' t', tstep false G t G' t'.
    Proof. exact (progress spoil G0 ts0 G ts jobs_secure ND RUN). Qed.
    Lemma never_race : forall ts1 t ts2 t' ts3 x, ts = ts1 ++ t :: ts2 ++ t' :: ts3 -> touches t x -> ~ touches t' x.
    Proof. exact (no_race spoil G0 ts0 G ts jobs_secure ND RUN). Qed.
    Lemma never_theirs : forall t x, In t ts -> touches t x -> ~ In x (map fst G0).
    Proof. exact (hands_off spoil G0 ts0 G ts jobs_secure ND RUN). Qed.

    Lemma forall2_nth : forall A B (P : A -> B -> Prop) l l' i x, Forall2 P l l' -> nth_error l i = Some x -> exists y, nth_error l' i = Some y /\ P x y.
    Proof.
      intros A B P l l' i x F. revert i. induction F as [|a b l l' H F IH]; intros [|i] e; try discriminate; cbn in *.
      - injection e as <-. exists b. auto.
      - apply IH. exact e.
    Qed.
    Lemma nth_all : forall A (l : list A) n i, length l = n -> (i < n)%nat -> exists x, nth_error l i = Some x.
    Proof. intros A l n i e H. destruct (nth_error l i) eqn:X; eauto. apply nth_error_None in X. lia. Qed.

    Lemma forall2_length : forall A B (P : A -> B -> Prop) l l', Forall2 P l l' -> length l = length l'.
    Proof. intros A B P l l' F. induction F; cbn; auto. Qed.

    (** Thread by thread, with the blocks of each. *)
    Lemma shares : exists ms, length ms = length js /\ length ts = length js /\ Permutation G (G0 ++ concat ms) /\ NoDup (map fst G) /\
      forall i j t m, nth_error js i = Some j -> nth_error ts i = Some t -> nth_error ms i = Some m -> done t ->
        leaves t m /\ (spoil = false -> answers U j t m).
    Proof.
      destruct (as_alone spoil G0 ts0 G ts jobs_secure ND RUN) as (ms & L1 & L2 & PM & NG & X). destruct ST as (OK & R).
      pose proof (forall2_length _ _ _ _ _ R) as L3. exists ms. rewrite L1, L2, <- L3. split; [reflexivity|split; [reflexivity|split; [exact PM|split; [exact NG|] ] ] ].
      intros i j t m H H1 H2 H3. split.
      - destruct (forall2_nth _ _ _ _ _ _ _ R H) as (t0 & H0 & RD). destruct (X i t0 t m H0 H1 H2) as (SC & Y). destruct H3 as (a & FI). destruct (Y a FI) as (E & h & FE & e & ->).
        eapply job_leaves; eauto. apply (proj1 (Forall_forall _ _) OK j). eapply nth_error_In; eauto.
      - intros SP. destruct (forall2_nth _ _ _ _ _ _ _ R H) as (t0 & H0 & RD). destruct (X i t0 t m H0 H1 H2) as (SC & Y). destruct H3 as (a & FI). destruct (Y a FI) as (E & h & FE & e & ->).
        eapply job_answers; eauto; [|apply FE|apply FE; exact SP]. apply (proj1 (Forall_forall _ _) OK j). eapply nth_error_In; eauto.
    Qed.

    (** What a finished thread has. *)
    Lemma one_thread : forall i j t, nth_error js i = Some j -> nth_error ts i = Some t -> done t ->
      exists m, incl m G /\ (forall x, In x (map fst m) -> ~ In x (map fst G0)) /\ leaves t m /\ (spoil = false -> answers U j t m).
    Proof.
      intros i j t H1 H2 D. destruct shares as (ms & L1 & L2 & PM & NG & X).
      assert (LI : (i < length js)%nat) by (apply nth_error_Some; rewrite H1; discriminate).
      destruct (nth_all _ ms _ i L1 LI) as (m & H3). exists m.
      assert (IN : incl m (concat ms)) by (intros b I; apply in_concat; exists m; split; [eapply nth_error_In; eauto|exact I]).
      split; [intros b I; apply (Permutation_in _ (Permutation_sym PM)); apply in_or_app; right; apply IN; exact I|]. split; [|eapply X; eauto].
      intros x I I0. apply in_map_iff in I. destruct I as (b & <- & I).
      apply (perm_keys _ _ PM) in NG. rewrite map_app in NG. apply in_split in I0. destruct I0 as (u & v & E). rewrite E, <- app_assoc in NG.
      apply NoDup_remove_2 in NG. apply NG. apply in_or_app. right. apply in_or_app. right. apply in_map. apply IN. exact I.
    Qed.
    (** The memory when all have finished. *)
    Lemma at_the_end : Forall done ts -> exists ms, length ms = length js /\ Permutation G (G0 ++ concat ms) /\
      forall i j t m, nth_error js i = Some j -> nth_error ts i = Some t -> nth_error ms i = Some m -> leaves t m /\ (spoil = false -> answers U j t m).
    Proof.
      intros D. destruct shares as (ms & L1 & L2 & PM & NG & X). exists ms. split; auto. split; auto. intros i j t m H1 H2 H3.
      eapply X; eauto. apply (proj1 (Forall_forall _ _) D t). eapply nth_error_In; eauto.
    Qed.
    (** Whatever has happened so far, the threads can all come to an end. *)
    Lemma steps_trans : forall s1 s2 s3 : @system answer, steps spoil s1 s2 -> steps spoil s2 s3 -> steps spoil s1 s3.
    Proof. intros s1 s2 s3 A B. revert A. induction B as [s|s s' s'' B1 IH B2]; intros A; [exact A|]. exact (steps_more _ _ _ _ (IH A) B2). Qed.
  End Run.

  Lemma more_spoil : forall spoil G (t : thread answer) G' t', tstep false G t G' t' -> tstep spoil G t G' t'.
  Proof. intros spoil G t G' t' H. destruct H; try (econstructor; eauto; fail); [apply ts_free_null|eapply ts_free; eauto]; intuition discriminate. Qed.
  Lemma done_dec : forall t : thread answer, done t \/ ~ done t.
  Proof. intros [[a| | | | | | | ] pl nm e sc]; unfold done, finished; cbn; [left; eauto|right..]; intros (? & X); discriminate. Qed.
  Lemma all_or_one : forall ts : list (thread answer), Forall done ts \/ exists a t b, ts = a ++ t :: b /\ ~ done t.
  Proof.
    induction ts as [|t ts IH]; [left; constructor|]. destruct (done_dec t) as [D|D].
    - destruct IH as [IH|(a & t' & b & -> & N)]; [left; constructor; auto|]. right. exists (t :: a), t', b. auto.
    - right. exists [], t, ts. auto.
  Qed.
  Lemma can_end : forall spoil js G0 ts0 s, started U js ts0 -> NoDup (map fst G0) -> steps spoil (G0, ts0) s ->
    exists s', steps spoil s s' /\ Forall done (snd s').
  Proof.
    intros spoil js G0 ts0 s ST ND. induction (all_end spoil s) as [s _ IH]. intros RUN. destruct s as [G ts].
    destruct (all_or_one ts) as [D|(a & t & b & -> & N)]; [exists (G, ts); split; [constructor|exact D]|].
    destruct (never_stuck spoil js G0 ts0 G _ ST ND RUN t) as [D|(G' & t' & T)]; [apply in_or_app; right; left; reflexivity|contradiction|].
    apply (more_spoil spoil) in T. assert (SS : sstep spoil (G, a ++ t :: b) (G', a ++ t' :: b)) by (constructor; exact T).
    destruct (IH _ SS) as (s' & R & D); [eapply steps_more; eauto|]. exists s'. split; auto.
    eapply steps_trans; [|exact R]. eapply steps_more; [constructor|exact SS].
  Qed.
End Jobs.
