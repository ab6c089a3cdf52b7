(** Proofs about the command line tool. *)
From Coq Require Import String.
From Verif Require Import Base Uenv SpecNfc SpecUtf8 SpecLookup SpecUnicode SpecRegister Lookup Api Register Error SpecError ErrorProofs
   Utf8 LookupCodes LookupProofs LookupTr46 LookupTop DecodeProofs NonZero ApiProofs RegisterProofs RegisterTop Cli SpecCli.
Local Open Scope list_scope.

Lemma flags_wanted : forall a, wanted a (Z.lor (cli_flags a) IDN2_NFC_INPUT).
Proof.
  intros a. unfold wanted, cli_flags.
  destruct (tr46t_given a), (tr46nt_given a), (no_tr46_given a), (usestd3asciirules_given a), (no_alabelroundtrip_given a);
    vm_compute; intuition (try discriminate; try congruence).
Qed.

Lemma wanted_good : forall a f, wanted a f -> ~ bad_flags f.
Proof.
  intros a f (_ & _ & R & _ & T & N & O & _) [[A B] | [[A B] | [A B]]].
  - apply T in A. apply N in B. destruct B. congruence.
  - apply O in A. destruct A as (A1 & A2 & A3). destruct B as [B | B]; [ apply T in B; congruence |].
    apply N in B. destruct B as [_ [B | B]]; congruence.
  - congruence.
Qed.

Lemma lor_nfc : forall f, Z.lor (Z.lor f IDN2_NFC_INPUT) IDN2_NFC_INPUT = Z.lor f IDN2_NFC_INPUT.
Proof. intros f. now rewrite <- Z.lor_assoc, Z.lor_diag. Qed.

(** ** Strings and lines *)
Lemma upto0_split : forall x, ~ In 0 (upto0 x) /\ (x = upto0 x \/ exists r, x = upto0 x ++ 0 :: r).
Proof.
  intros x. split; [ apply upto0_no0 |]. induction x as [| c x IH]; [ now left |].
  cbn [upto0]. destruct (Z.eqb_spec c 0) as [-> | N]; [ right; exists x; reflexivity |].
  destruct IH as [IH | (r & IH)]; [ left; congruence | right; exists r; cbn [app]; congruence ].
Qed.
Lemma chomp_spec : forall t, t = chomp t ++ [10] \/ (t = chomp t /\ forall u, chomp t <> u ++ [10]).
Proof.
  intros t. unfold chomp. destruct (Z.eqb_spec (last t 0) 10) as [E | N].
  - left. destruct t as [| c t]; [ discriminate E |]. rewrite <- E. apply app_removelast_last. discriminate.
  - right. split; [ reflexivity |]. intros u ->. rewrite last_last in N. congruence.
Qed.
Lemma content_of : forall x, content x (chomp (upto0 x)).
Proof.
  intros x. exists (upto0 x). destruct (upto0_split x) as [A B]. split; [ exact B |]. split; [ exact A |]. apply chomp_spec.
Qed.
Lemma split_unique : forall (a b x y : list Z), ~ In 0 a -> ~ In 0 b -> a ++ 0 :: x = b ++ 0 :: y -> a = b.
Proof.
  induction a as [| c a IH]; intros [| d b] x y A B E; cbn [app] in E; try reflexivity; injection E as E1 E2.
  - exfalso. apply B. left. congruence.
  - exfalso. apply A. now left.
  - subst d. f_equal. apply (IH b x y); [ intros I; apply A; now right | intros I; apply B; now right | exact E2 ].
Qed.
Lemma content_unique : forall x s, content x s -> s = chomp (upto0 x).
Proof.
  intros x s (t & E & N & F).
  assert (T : upto0 x = t).
  { destruct (upto0_split x) as [A B].
    assert (NI : forall y r, ~ In 0 y -> y = t ++ 0 :: r -> False) by (intros y r Y ->; apply Y; apply in_or_app; right; now left).
    destruct E as [E | (r & E)], B as [B | (q & B)].
    - congruence.
    - exfalso. apply N. rewrite <- E, B. apply in_or_app. right. now left.
    - exfalso. rewrite B in E. exact (NI _ _ A E).
    - rewrite B in E. exact (split_unique _ _ _ _ A N E). }
  rewrite T. destruct F as [-> | [-> F]].
  - unfold chomp. rewrite last_last, removelast_last. reflexivity.
  - destruct (chomp_spec s) as [C | [C _]]; [ exfalso; exact (F _ C) | exact C ].
Qed.

Lemma getlines_app : forall l r, ~ In 10 l -> getlines (l ++ 10 :: r) = (l ++ [10]) :: getlines r.
Proof.
  induction l as [| c l IH]; intros r N; cbn [app getlines]; [ reflexivity |].
  destruct (Z.eqb_spec c 10) as [-> | C]; [ exfalso; apply N; now left |].
  rewrite IH by (intros I; apply N; now right). reflexivity.
Qed.
Lemma getlines_last : forall l, l <> [] -> ~ In 10 l -> getlines l = [l].
Proof.
  induction l as [| c l IH]; intros E N; [ congruence |]. cbn [getlines].
  destruct (Z.eqb_spec c 10) as [-> | C]; [ exfalso; apply N; now left |].
  destruct l as [| d l]; [ reflexivity |]. rewrite IH; [ reflexivity | discriminate | intros I; apply N; now right ].
Qed.
Lemma lines_getlines : forall s ls, lines s ls -> ls = getlines s.
Proof.
  induction 1 as [| l r ls N L IH | l E N]; [ reflexivity | now rewrite getlines_app, IH | now rewrite getlines_last ].
Qed.
Lemma lines_total : forall s, lines s (getlines s).
Proof.
  assert (A : forall s, (exists l r, s = l ++ 10 :: r /\ ~ In 10 l) \/ ~ In 10 s).
  { induction s as [| c s IH]; [ now right |]. destruct (Z.eq_dec c 10) as [-> | N]; [ left; exists [], s; auto |].
    destruct IH as [(l & r & -> & I) | I]; [ left; exists (c :: l), r; split; [ reflexivity | cbn; intuition ] | right; cbn; intuition ]. }
  intros s. remember (List.length s) as n eqn:E. assert (LE : (List.length s <= n)%nat) by lia. clear E. revert s LE.
  induction n as [| n IH]; intros s L.
  - destruct s; [ constructor | cbn in L; lia ].
  - destruct (A s) as [(l & r & -> & I) | I].
    + rewrite getlines_app by assumption. constructor; [ assumption |]. apply IH. rewrite app_length in L. cbn in L. lia.
    + destruct s as [| c s]; [ constructor |]. rewrite getlines_last by (assumption || discriminate). constructor; [ discriminate | assumption ].
Qed.

(** ** One input *)
Lemma eq_string_spec : forall a b, eq_string a b = true <-> a = b.
Proof. intros a b. unfold eq_string. destruct (list_eq_dec Z.eq_dec a b); intuition congruence. Qed.

(** A call that delivers. *)
Definition definite (F : cell -> result) : Prop :=
  (exists r, forall o, F o = Ok (IDN2_OK, store o (Some r))) \/ (exists rc, rc <> IDN2_OK /\ forall o, F o = Ok (rc, o)).
Lemma deliver_definite : forall m, safe m -> nz m -> definite (fun o => deliver o m).
Proof.
  intros [r | rc | |] S N; try contradiction.
  - left. exists r. reflexivity.
  - right. exists rc. split; [ now apply N | reflexivity ].
Qed.

Definition calls (w : world) (a : options) (f : Z) (s : list Z) (o : cell) : result :=
  if register_given a then register_ul (w_uenv w) (w_locale w) (Some s) None o f
  else if decode_given a then to_unicode_lzlz (w_locale w) (w_junk w) (Some s) o 0
  else idn2_lookup_ul (w_uenv w) (w_locale w) (Some s) o f.

Lemma calls_definite : forall w a f s, nfc_ok (w_uenv w) -> locale_ok (w_locale w) -> wanted a f ->
  exists m, (forall o, calls w a f s o = deliver o m) /\ safe m /\ nz m /\ forall rc, m = Fail rc -> In rc cli_codes.
Proof.
  intros w a f s K LO W. unfold calls.
  assert (IA : forall rc, In rc lookup_errors -> In rc cli_codes) by (intros; right; apply in_or_app; now left).
  assert (IB : forall rc, In rc unicode_errors -> In rc cli_codes) by (intros; right; apply in_or_app; right; apply in_or_app; now left).
  assert (IC : forall rc, In rc register_errors -> In rc cli_codes) by (intros; right; apply in_or_app; right; apply in_or_app; now right).
  assert (II : forall rc, @Fail (list Z) IDN2_ICONV_FAIL = Fail rc -> In rc cli_codes) by (intros rc H; left; congruence).
  destruct (register_given a); [| destruct (decode_given a) ].
  - destruct (from_locale (w_locale w) s) as [b |] eqn:E.
    + destruct (LO s b E) as [C _]. exists (reg_ulabel (w_uenv w) b (Z.lor f IDN2_NFC_INPUT)).
      split; [ intros o; rewrite register_locale, E; reflexivity |].
      pose proof (reg_u_codes (w_uenv w) b (Z.lor f IDN2_NFC_INPUT) K C) as R.
      destruct (reg_ulabel (w_uenv w) b (Z.lor f IDN2_NFC_INPUT)) as [r | rc | |]; try contradiction.
      * split; [ exact I |]. split; [ apply nz_ok |]. discriminate.
      * split; [ exact I |]. split; [| intros rc' X; injection X as <-; now apply IC ].
        apply nz_fail. intros ->. revert R. vm_compute. intuition discriminate.
    + exists (Fail IDN2_ICONV_FAIL). split; [ intros o; rewrite register_locale, E; reflexivity |].
      split; [ exact I |]. split; [ apply nz_fail; discriminate | exact II ].
  - destruct (from_locale (w_locale w) s) as [b |] eqn:E.
    + destruct (LO s b E) as [C Z64]. eexists. split; [ intros o; rewrite f_lzlz, E; reflexivity |].
      pose proof (unicode_safe b C Z64) as SU. pose proof (u8z4z_codes b (Some None) 0 C Z64) as UC. unfold to_unicode_8z4z in UC.
      destruct (unicode b) as [r | rc | |]; try contradiction; cbn [bind deliver store] in *.
      * unfold utf8_out. destruct (u32_to_u8 (upto0 r ++ [0])) as [x |]; cbn [bind].
        -- unfold locale_out. destruct (to_locale (w_locale w) (upto0 x)).
           ++ split; [ exact I |]. split; [ apply nz_ok | discriminate ].
           ++ split; [ exact I |]. split; [ apply nz_fail; discriminate |]. intros rc X. injection X as <-. apply IB. vm_compute. tauto.
        -- split; [ exact I |]. split; [ apply nz_fail; discriminate |]. intros rc X. injection X as <-. apply IB. vm_compute. tauto.
      * split; [ exact I |]. destruct UC as [[-> (q & _ & X)] | [R _]]; [ discriminate X |].
        split; [ apply nz_fail; intros ->; revert R; vm_compute; intuition discriminate |]. intros rc' X. injection X as <-. now apply IB.
    + exists (Fail IDN2_ICONV_FAIL). split; [ intros o; rewrite f_lzlz, E; reflexivity |].
      split; [ exact I |]. split; [ apply nz_fail; discriminate | exact II ].
  - destruct (from_locale (w_locale w) s) as [b |] eqn:E.
    + destruct (LO s b E) as [C Z64]. exists (lookup_u8 (w_uenv w) b (Z.lor f IDN2_NFC_INPUT)).
      split; [ intros o; unfold idn2_lookup_ul; rewrite E; reflexivity |]. split; [ now apply lookup_safe |]. split; [ apply nz_lookup |].
      intros rc H. destruct (lookup_codes _ _ _ _ K C Z64 H) as [[B _] | [_ IR]]; [ exfalso | now apply IA ].
      assert (F : Z.lor f IDN2_NFC_INPUT = f).
      { destruct W as (R & N & _). unfold opt_nfc in N. apply Z.bits_inj. intros i. rewrite Z.lor_spec.
        destruct (Z.eq_dec i 0) as [-> | NE]; [ rewrite N; reflexivity |].
        change IDN2_NFC_INPUT with (2 ^ 0). rewrite Z.pow2_bits_false by congruence. apply orb_false_r. }
      rewrite F in B. exact (wanted_good a f W B).
    + exists (Fail IDN2_ICONV_FAIL). split; [ intros o; unfold idn2_lookup_ul; rewrite E; reflexivity |].
      split; [ exact I |]. split; [ apply nz_fail; discriminate | exact II ].
Qed.

(** The bit for normalisation makes no difference to the calls. *)
Lemma calls_nfc : forall w a f s o, calls w a (Z.lor f IDN2_NFC_INPUT) s o = calls w a f s o.
Proof.
  intros w a f s o. unfold calls. rewrite !register_locale. unfold idn2_lookup_ul. rewrite !lor_nfc. reflexivity.
Qed.
Lemma convert_calls : forall w a f s, convert w a f s = calls w a f s (Some None).
Proof. reflexivity. Qed.

Lemma process_input_eq : forall w a x f, process_input w a x f =
  let s := chomp (upto0 x) in
  if eq_string s show_w then Ok ([Stdout (w_warranty w ++ [10])], true)
  else if eq_string s show_c then Ok ([Stdout (w_conditions w ++ [10])], true)
  else
    let pre := if debug_given a then [Hexdump Dinput s] else [] in
    let* (rc, output) := calls w a f s (Some (w_junk w)) in
    if rc =? IDN2_OK then
      match output with
      | Some (Some r) => Ok (pre ++ (if debug_given a then [Hexdump Doutput s] else []) ++ [Stdout (r ++ [10])], true)
      | _ => Undef
      end
    else Ok (pre ++ [Complaint (tag_of a) rc], false).
Proof. intros. unfold process_input, calls, tag_of, to_ascii_lz. cbv zeta. destruct (register_given a), (decode_given a); reflexivity. Qed.

Lemma stdout_app : forall a b, stdout (a ++ b) = stdout a ++ stdout b.
Proof. intros. unfold stdout. now rewrite map_app, concat_app. Qed.
Lemma complaints_app : forall a b, complaints (a ++ b) = complaints a ++ complaints b.
Proof. intros. unfold complaints. now rewrite map_app, concat_app. Qed.

Lemma process_one : forall w a f x, nfc_ok (w_uenv w) -> locale_ok (w_locale w) -> wanted a (Z.lor f IDN2_NFC_INPUT) ->
  let f' := Z.lor f IDN2_NFC_INPUT in
  exists s, content x s /\
    ((exists ev r, process_input w a x f = Ok (ev, true) /\ answer w a f' s r /\ stdout ev = r ++ [10] /\ complaints ev = []) \/
     (exists ev rc, process_input w a x f = Ok (ev, false) /\ refused w a f' s rc /\ stdout ev = [] /\ complaints ev = [(tag_of a, rc)] /\ In rc cli_codes)).
Proof.
  intros w a f x K LO W f'. exists (chomp (upto0 x)). split; [ apply content_of |].
  rewrite process_input_eq. cbv zeta. set (s := chomp (upto0 x)).
  destruct (eq_string s show_w) eqn:EW.
  { apply eq_string_spec in EW. left. exists [Stdout (w_warranty w ++ [10])], (w_warranty w). rewrite EW.
    split; [ reflexivity |]. split; [ constructor |]. split; [ cbn; now rewrite app_nil_r | reflexivity ]. }
  destruct (eq_string s show_c) eqn:EC.
  { apply eq_string_spec in EC. left. exists [Stdout (w_conditions w ++ [10])], (w_conditions w). rewrite EC.
    split; [ reflexivity |]. split; [ constructor |]. split; [ cbn; now rewrite app_nil_r | reflexivity ]. }
  assert (NW : s <> show_w) by (intros E; apply eq_string_spec in E; congruence).
  assert (NC : s <> show_c) by (intros E; apply eq_string_spec in E; congruence).
  destruct (calls_definite w a f' s K LO W) as (m & D & S & N & CO). rewrite <- calls_nfc. fold f'. rewrite D.
  destruct m as [r | rc | |]; try contradiction; cbn [deliver store bind].
  - left. rewrite Z.eqb_refl. eexists _, r. split; [ reflexivity |]. split.
    { constructor; [ exact NW | exact NC |]. rewrite convert_calls, D. reflexivity. }
    split; [ rewrite !stdout_app; destruct (debug_given a); cbn; now rewrite app_nil_r | rewrite !complaints_app; destruct (debug_given a); reflexivity ].
  - right. specialize (N rc eq_refl). destruct (Z.eqb_spec rc IDN2_OK) as [E | NE]; [ contradiction |].
    eexists _, rc. split; [ reflexivity |]. split.
    { split; [ exact NW |]. split; [ exact NC |]. split; [ exact N |]. rewrite convert_calls, D. reflexivity. }
    split; [ rewrite stdout_app; destruct (debug_given a); reflexivity |].
    split; [ rewrite complaints_app; destruct (debug_given a); reflexivity | exact (CO rc eq_refl) ].
Qed.

Lemma process_session : forall w a f l, nfc_ok (w_uenv w) -> locale_ok (w_locale w) -> wanted a (Z.lor f IDN2_NFC_INPUT) ->
  exists ev e, process_all w a l f = Ok (ev, match e with None => true | Some _ => false end) /\
    session w a (Z.lor f IDN2_NFC_INPUT) l (stdout ev) e /\
    complaints ev = match e with None => [] | Some rc => [(tag_of a, rc)] end /\
    (forall rc, e = Some rc -> In rc cli_codes).
Proof.
  intros w a f l K LO W. induction l as [| x l IH].
  - exists [], None. split; [ reflexivity |]. split; [ constructor |]. split; [ reflexivity | discriminate ].
  - cbn [process_all]. destruct (process_one w a f x K LO W) as (s & C & [(ev & r & E & A & SO & CO) | (ev & rc & E & A & SO & CO & IR)]); rewrite E; cbn [bind].
    + destruct IH as (ev' & e & E' & SE & CE & IE). rewrite E'. cbn [bind]. exists (ev ++ ev'), e. split; [ reflexivity |].
      split; [| split; [ rewrite complaints_app, CO; exact CE | exact IE ] ].
      rewrite stdout_app, SO, <- app_assoc. cbn [app]. now apply se_line with (s := s).
    + exists ev, (Some rc). split; [ reflexivity |]. split; [ rewrite SO; now apply se_stop with (s := s) |].
      split; [ exact CO |]. intros rc' X. injection X as <-. exact IR.
Qed.

(** ** The whole program *)
Lemma lor_lor : forall a, Z.lor (Z.lor (cli_flags a) IDN2_NFC_INPUT) IDN2_NFC_INPUT = Z.lor (cli_flags a) IDN2_NFC_INPUT.
Proof. intros. apply lor_nfc. Qed.

Lemma main_session : forall w a, nfc_ok (w_uenv w) -> locale_ok (w_locale w) -> version_given a = false -> help_given a = false ->
  exists ev status f given e, main w (Some a) = Ok (ev, status) /\ wanted a f /\
    ((inputs a <> [] /\ given = inputs a) \/ (inputs a = [] /\ lines (w_stdin w) given)) /\
    session w a f given (stdout ev) e /\
    complaints ev = match e with None => [] | Some rc => [(tag_of a, rc)] end /\
    (status = 0 <-> e = None /\ w_ferror w = false) /\
    (forall rc, e = Some rc -> In rc cli_codes).
Proof.
  intros w a K LO V H. unfold main. rewrite V, H.
  set (idle := negb (quiet_given a) && _ && w_tty w). set (pre := (if idle then [Greeting] else []) ++ _).
  assert (P1 : stdout pre = []) by (unfold pre; rewrite !stdout_app; destruct idle, (debug_given a); reflexivity).
  assert (P2 : complaints pre = []) by (unfold pre; rewrite !complaints_app; destruct idle, (debug_given a); reflexivity).
  clearbody pre. clear idle.
  assert (FIN : forall ev e,
    exists ev2 status, (if negb (match e with None => true | Some _ => false end) then Ok (pre ++ ev, EXIT_FAILURE)
      else if w_ferror w then Ok (pre ++ ev ++ [InputError], EXIT_FAILURE) else Ok (pre ++ ev, EXIT_SUCCESS)) = Ok (ev2, status) /\
      stdout ev2 = stdout ev /\ complaints ev2 = complaints ev /\ (status = 0 <-> (e : option Z) = None /\ w_ferror w = false)).
  { intros ev [rc |]; cbn [negb].
    - eexists _, _. split; [ reflexivity |]. rewrite stdout_app, complaints_app, P1, P2. split; [ reflexivity |]. split; [ reflexivity |].
      split; [ discriminate | intros [X _]; discriminate ].
    - destruct (w_ferror w); eexists _, _; (split; [ reflexivity |]); rewrite !stdout_app, !complaints_app, P1, P2; cbn [app].
      + split; [ cbn; now rewrite app_nil_r |]. split; [ cbn; now rewrite app_nil_r |]. split; [ discriminate | intros [_ X]; discriminate ].
      + split; [ reflexivity |]. split; [ reflexivity |]. split; intros; [ split; reflexivity | reflexivity ]. }
  assert (W : wanted a (Z.lor (cli_flags a) IDN2_NFC_INPUT)) by apply flags_wanted.
  destruct (inputs a) as [| x xs] eqn:I.
  - cbn [process_all bind negb]. destruct (process_session w a (cli_flags a) (getlines (w_stdin w)) K LO W) as (ev & e & E & S & C & IE).
    rewrite E. cbn [bind app]. destruct (FIN ev e) as (ev2 & st & E2 & S2 & C2 & ST).
    exists ev2, st, (Z.lor (cli_flags a) IDN2_NFC_INPUT), (getlines (w_stdin w)), e.
    split; [ exact E2 |]. split; [ exact W |]. split; [ right; split; [ reflexivity | apply lines_total ] |].
    rewrite S2, C2. auto.
  - assert (W' : wanted a (Z.lor (Z.lor (cli_flags a) IDN2_NFC_INPUT) IDN2_NFC_INPUT)) by (rewrite lor_lor; exact W).
    destruct (process_session w a (Z.lor (cli_flags a) IDN2_NFC_INPUT) (x :: xs) K LO W') as (ev & e & E & S & C & IE).
    rewrite lor_lor in S. rewrite E. cbn [bind]. destruct (FIN ev e) as (ev2 & st & E2 & S2 & C2 & ST).
    exists ev2, st, (Z.lor (cli_flags a) IDN2_NFC_INPUT), (x :: xs), e.
    split; [ rewrite <- E2; destruct e; cbn [negb bind]; rewrite ?app_nil_r; reflexivity |].
    split; [ exact W |]. split; [ left; split; [ discriminate | reflexivity ] |]. rewrite S2, C2. auto.
Qed.

(** A session is determined by its inputs. *)
Lemma answer_refused : forall w a f s r rc, answer w a f s r -> refused w a f s rc -> False.
Proof. intros w a f s r rc A (N1 & N2 & N3 & E). destruct A as [| | s r _ _ C]; [ now apply N1 | now apply N2 | congruence ]. Qed.
Lemma answer_unique : forall w a f s r r', answer w a f s r -> answer w a f s r' -> r = r'.
Proof.
  intros w a f s r r' A B. inversion A; subst; inversion B; subst; try congruence; try contradiction.
Qed.
Lemma session_unique : forall w a f l o e o' e' l', session w a f l o e -> Forall2 (fun x y => forall s, content x s <-> content y s) l l' ->
  session w a f l' o' e' -> o = o' /\ e = e'.
Proof.
  intros w a f l o e o' e' l' S. revert l' o' e'.
  assert (Q : forall x y s s', (forall t, content x t <-> content y t) -> content x s -> content y s' -> s' = s).
  { intros x y s s' H C C'. apply H in C. now rewrite (content_unique _ _ C), (content_unique _ _ C'). }
  induction S as [| x s r xs o e C A S IH | x s rc xs C R]; intros l' o' e' F S'; (inversion F as [| x1 y l1 ys H1 H3]; subst).
  - inversion S'; subst. auto.
  - inversion S' as [| y1 s' r' ys1 o1 e1 C' A' S1 | y1 s' rc' ys1 C' R']; subst; pose proof (Q _ _ _ _ H1 C C'); subst s'.
    + destruct (IH _ _ _ H3 S1) as [-> ->]. now rewrite (answer_unique _ _ _ _ _ _ A A').
    + exfalso. exact (answer_refused _ _ _ _ _ _ A R').
  - inversion S' as [| y1 s' r' ys1 o1 e1 C' A' S1 | y1 s' rc' ys1 C' R']; subst; pose proof (Q _ _ _ _ H1 C C'); subst s'.
    + exfalso. exact (answer_refused _ _ _ _ _ _ A' R).
    + destruct R as (_ & _ & _ & E1). destruct R' as (_ & _ & _ & E2). split; [ reflexivity | congruence ].
Qed.
Lemma wanted_unique : forall a f g, wanted a f -> wanted a g -> f = g.
Proof.
  intros a f g (Rf & f1 & f2 & f3 & f4 & f5 & f6 & f7 & f8) (Rg & g1 & g2 & g3 & g4 & g5 & g6 & g7 & g8).
  assert (B : forall i, 0 <= i < 8 -> Z.testbit f i = Z.testbit g i).
  { unfold opt_nfc, opt_roundtrip, opt_unassigned, opt_transitional, opt_nontransitional, opt_no_tr46, opt_std3, opt_no_roundtrip in *.
    intros i Hi. assert (i = 0 \/ i = 1 \/ i = 2 \/ i = 3 \/ i = 4 \/ i = 5 \/ i = 6 \/ i = 7) as D by lia.
    destruct D as [-> | [-> | [-> | [-> | [-> | [-> | [-> | ->]]]]]]]; try congruence; apply eq_true_iff_eq; [ rewrite f4, g4 | rewrite f5, g5 | rewrite f7, g7 | rewrite f6, g6 | rewrite f8, g8 ]; tauto. }
  apply Z.bits_inj_iff. intros i. destruct (Z_lt_dec i 0) as [L | L]; [ now rewrite !Z.testbit_neg_r |].
  destruct (Z_lt_dec i 8) as [M | M]; [ apply B; lia |].
  rewrite !Z.bits_above_log2; [ reflexivity | lia | | lia | ].
  - destruct (Z.eq_dec g 0) as [-> | N]; [ cbn; lia |]. apply Z.log2_lt_pow2; [ lia |]. apply Z.lt_le_trans with (2 ^ 8); [ cbn; lia | apply Z.pow_le_mono_r; lia ].
  - destruct (Z.eq_dec f 0) as [-> | N]; [ cbn; lia |]. apply Z.log2_lt_pow2; [ lia |]. apply Z.lt_le_trans with (2 ^ 8); [ cbn; lia | apply Z.pow_le_mono_r; lia ].
Qed.
