(** The debug output of a whole run. *)
From Coq Require Import String.
From Verif Require Import Base Uenv SpecUtf8 Utf8 Utf8Proofs SpecLookup LookupProofs MapProofs SpecCText CTextLex Lookup Api SpecUnicode SpecNfc Scan GenText Cli SpecCli CliProofs Hexdump SpecHexdump HexdumpProofs.
Local Open Scope list_scope.
Local Open Scope Z_scope.

Definition dumps (L : locale) (ps : list (dump * list Z)) : list Z := flat_map (fun e => hexdump L (dump_prefix (fst e)) (snd e)) ps.

Lemma prefix_some : forall p, dump_prefix p <> [].
Proof. destruct p; discriminate. Qed.

Lemma tail_head : forall L p s t, locale_ok L -> dump_of L (dump_prefix p) s t ->
  exists t1 t2, t = t1 ++ t2 /\ dump_lines (dump_prefix p) (text "0x") 2 0 s t1 /\ (t2 = [] \/ hd 0 t2 = 85) /\ (s = [] -> nothing_from_nothing L -> t2 = []).
Proof.
  intros L p s t K (t1 & t2 & t3 & -> & H1 & H2). exists t1, (t2 ++ t3). split; [reflexivity|]. split; [exact H1|].
  assert (Q : forall nm hd' w l x, dump_lines (85 :: nm) hd' w 0 l x -> x = [] \/ hd 0 x = 85) by (intros nm hd' w l x H; inversion H; auto).
  destruct (from_locale L s) as [u|] eqn:E.
  - destruct H2 as (A & B & C & D).
    assert (X2 : t2 = [] \/ hd 0 t2 = 85).
    { destruct (list_eq_dec Z.eq_dec u s) as [e|e]; [left; now apply A | exact (Q _ _ _ _ _ (B e))]. }
    destruct (u8_to_u32 u) as [l|] eqn:El.
    + assert (Hl : utf8 l u) by (apply u8_to_u32_iff; [apply c_string_bytes; exact (proj1 (K s u E)) | exact El]).
      pose proof (C l Hl) as H3. split.
      * destruct X2 as [->|X2]; [exact (Q _ _ _ _ _ H3)|]. right. destruct t2; [discriminate X2 | exact X2].
      * intros -> NN. assert (u = []) as -> by (now apply NN). rewrite (A eq_refl). cbn in El. injection El as <-. inversion H3. reflexivity.
    + assert (N : ~ exists l, utf8 l u) by (intros [l Hl]; rewrite (u8_to_u32_complete l u Hl) in El; discriminate El).
      rewrite (D N), app_nil_r. split; [exact X2|]. intros -> NN. assert (u = []) as -> by (now apply NN). now apply A.
  - destruct H2 as [-> ->]. split; [now left | reflexivity].
Qed.

(** The start of a sequence of dumps of names that are not empty. *)
Lemma dumps_start : forall L ps, locale_ok L -> Forall (fun e => c_string (snd e) /\ snd e <> []) ps ->
  dumps L ps = [] /\ ps = [] \/ exists p s r, ps = (p, s) :: r /\ goes_on (dump_prefix p) 0 (dumps L ps).
Proof.
  intros L [|[p s] r] K F; [now left | right]. exists p, s, r. split; [reflexivity|]. inversion F as [|? ? [C N] F']; subst. cbn [dumps flat_map fst snd] in *.
  destruct (tail_head L p s _ K (dump_text L (dump_prefix p) s K C)) as (t1 & t2 & -> & H & _).
  destruct s as [|c s]; [contradiction|]. rewrite <- app_assoc. eapply lines_on. exact H.
Qed.
Lemma prefix_head : forall p q, hd 0 (dump_prefix p) = hd 0 (dump_prefix q) -> p = q.
Proof. destruct p, q; intro H; try reflexivity; discriminate H. Qed.
Lemma prefix_U : forall p, hd 0 (dump_prefix p) <> 85.
Proof. destruct p; discriminate. Qed.

Lemma dumps_back : forall L ps, locale_ok L -> Forall (fun e => c_string (snd e) /\ snd e <> []) ps ->
  forall ps', Forall (fun e => c_string (snd e) /\ snd e <> []) ps' -> dumps L ps = dumps L ps' -> ps = ps'.
Proof.
  intros L ps K F. induction F as [|[p s] r [C N] F IH]; intros ps' F' E.
  - destruct (dumps_start L ps' K F') as [[_ ->]|(p & s & r & -> & G)]; [reflexivity|]. rewrite <- E in G. destruct G as (? & ? & _ & X).
    destruct p; discriminate X.
  - destruct F' as [|[p' s'] r' [C' N'] F'].
    + destruct (dumps_start L ((p, s) :: r) K) as [[_ X]|(q & s1 & r1 & _ & G)]; [constructor; [now split | assumption] | discriminate X |].
      rewrite E in G. destruct G as (? & ? & _ & X). destruct q; discriminate X.
    + assert (p = p') as <-.
      { destruct (dumps_start L ((p, s) :: r) K) as [[_ X]|(q & s1 & r1 & X & G)]; [constructor; [now split | assumption] | discriminate X |]. injection X as <- <- <-.
        destruct (dumps_start L ((p', s') :: r') K) as [[_ X]|(q' & s2 & r2 & X & G')]; [constructor; [now split | assumption] | discriminate X |]. injection X as <- <- <-.
        rewrite E in G. apply prefix_head. rewrite <- (goes_head _ _ _ (prefix_some p) G). exact (goes_head _ _ _ (prefix_some p') G'). }
      cbn [dumps flat_map fst snd] in E. cbn [fst snd] in *.
      destruct (tail_head L p s _ K (dump_text L (dump_prefix p) s K C)) as (t1 & t2 & Et & H & T & _).
      destruct (tail_head L p s' _ K (dump_text L (dump_prefix p) s' K C')) as (t1' & t2' & Et' & H' & T' & _).
      assert (GO : forall (s t2 : list Z) (r : list (dump * list Z)), s <> [] -> (t2 = [] \/ hd 0 t2 = 85) -> Forall (fun e => c_string (snd e) /\ snd e <> []) r ->
                     forall j, j = 0 + zlen s -> ~ goes_on (dump_prefix p) j (t2 ++ dumps L r)).
      { clear - K p. intros s t2 r N T F j -> G. destruct T as [->|T].
        - cbn [app] in G. destruct (dumps_start L r K F) as [[X _]|(q & s1 & r1 & -> & G')].
          + rewrite X in G. destruct G as (? & ? & _ & X1). destruct p; discriminate X1.
          + assert (q = p) as -> by (apply prefix_head; rewrite <- (goes_head _ _ _ (prefix_some q) G'); exact (goes_head _ _ _ (prefix_some p) G)).
            pose proof (goes_index _ _ _ _ G G') as X. destruct s; [contradiction|]. unfold zlen in X. cbn [length] in X. lia.
        - apply (prefix_U p). rewrite <- (goes_head _ _ _ (prefix_some p) G). destruct t2; [discriminate T | exact T]. }
      assert (s = s') as <-.
      { rewrite Et, Et', <- !app_assoc in E. exact (proj1 (lines_back _ _ _ _ _ _ H s' t1' _ _ H' (GO s t2 r N T F) (GO s' t2' r' N' T' F') E)). }
      apply app_inv_head in E. f_equal. apply IH; [exact F' | exact E].
Qed.

Lemma dumped_shown : forall L ev, locale_ok L -> nothing_from_nothing L -> dumped L ev = dumps L (shown ev).
Proof.
  intros L ev K NN. induction ev as [|e ev IH]; [reflexivity|]. unfold dumped, dumps, shown in *. cbn [flat_map].
  destruct e as [| | | | | |p [|c s]| |]; try exact IH; [|].
  - destruct (tail_head L p [] _ K (dump_text L (dump_prefix p) [] K ltac:(constructor))) as (t1 & t2 & -> & H & _ & T). inversion H; subst.
    rewrite (T eq_refl NN). exact IH.
  - cbn [flat_map app]. rewrite IH. reflexivity.
Qed.

Lemma logged_app : forall a b, logged (a ++ b) = logged a ++ logged b.
Proof. intros. apply flat_map_app. Qed.
Lemma dumped_logged : forall L ev, dumped L ev = dumps L (logged ev).
Proof.
  intros L ev. induction ev as [|e ev IH]; [reflexivity|]. unfold dumped, dumps, logged in *. cbn [flat_map]. rewrite IH.
  destruct e; reflexivity.
Qed.
Lemma content_c_string : forall x s, bytes x -> content x s -> c_string s.
Proof.
  intros x s B (t & X & N & T).
  assert (Bt : bytes t) by (destruct X as [->|[r ->]]; [exact B | apply Forall_app in B; tauto]).
  assert (Bs : bytes s /\ ~ In 0 s).
  { destruct T as [->|[-> _]]; [|tauto]. apply Forall_app in Bt. split; [tauto|]. intro I. apply N. apply in_or_app. now left. }
  destruct Bs as [Bs Ns]. apply Forall_forall. intros b I. pose proof (proj1 (Forall_forall _ _) Bs b I) as R. cbv beta in R.
  assert (b <> 0) by (intros ->; contradiction). lia.
Qed.
Lemma logged_dumps : forall L d, locale_ok L -> Forall (fun e => c_string (snd e)) d -> dumps_of L d (dumps L d).
Proof.
  intros L d K F. induction F as [|[p s] d C F IH]; [constructor|]. cbn [dumps flat_map fst snd] in *. constructor; [|exact IH].
  change (heading p) with (dump_prefix p). now apply dump_text.
Qed.
Lemma shown_logged : forall ev, shown ev = filter (fun e => match snd e with [] => false | _ => true end) (logged ev).
Proof.
  intros ev. induction ev as [|e ev IH]; [reflexivity|]. unfold shown, logged in *. cbn [flat_map]. rewrite IH.
  destruct e as [| | | | | |p [|c s]| |]; reflexivity.
Qed.

Lemma trace_one : forall w a f x ev go, debug_given a = true -> nfc_ok (w_uenv w) -> locale_ok (w_locale w) -> wanted a (Z.lor f IDN2_NFC_INPUT) ->
  process_input w a x f = Ok (ev, go) ->
  exists s, content x s /\
    (go = true /\ (s = show_w \/ s = show_c) /\ logged ev = [] \/
     go = true /\ s <> show_w /\ s <> show_c /\ (exists r, convert w a (Z.lor f IDN2_NFC_INPUT) s = Ok (IDN2_OK, Some (Some r))) /\ logged ev = [(Dinput, s); (Doutput, s)] \/
     go = false /\ (exists rc, refused w a (Z.lor f IDN2_NFC_INPUT) s rc) /\ logged ev = [(Dinput, s)]).
Proof.
  intros w a f x ev go D K LO W E. destruct (process_one w a f x K LO W) as (s & C & P). exists s. split; [exact C|].
  pose proof (content_unique x s C) as ES. rewrite process_input_eq in E. cbv zeta in E. rewrite process_input_eq in P. cbv zeta in P. rewrite <- ES, D in E, P.
  destruct (eq_string s show_w) eqn:EW.
  { apply eq_string_spec in EW. injection E as <- <-. left. split; [reflexivity|]. split; [now left | reflexivity]. }
  destruct (eq_string s show_c) eqn:EC.
  { apply eq_string_spec in EC. injection E as <- <-. left. split; [reflexivity|]. split; [now right | reflexivity]. }
  right.
  assert (NW : s <> show_w) by (intros X; apply eq_string_spec in X; congruence).
  assert (NC : s <> show_c) by (intros X; apply eq_string_spec in X; congruence).
  assert (SH : (logged ev = [(Dinput, s); (Doutput, s)] /\ go = true) \/ (logged ev = [(Dinput, s)] /\ go = false)).
  { destruct (calls w a f s (Some (w_junk w))) as [[rc o]|rc| |]; cbn [bind] in E; try discriminate E. destruct (rc =? IDN2_OK).
    - destruct o as [[r|]|]; try discriminate E. injection E as <- <-. left. split; reflexivity.
    - injection E as <- <-. right. split; reflexivity. }
  destruct P as [(ev' & r & E' & A & _)|(ev' & rc & E' & A & _)]; rewrite E' in E; injection E as <- <-; destruct SH as [[SH X]|[SH X]]; try discriminate X.
  - left. split; [reflexivity|]. split; [exact NW|]. split; [exact NC|]. split; [|exact SH].
    destruct A as [| |s r _ _ A]; [now elim NW | now elim NC | now exists r].
  - right. split; [reflexivity|]. split; [now exists rc | exact SH].
Qed.
Lemma trace_all : forall w a f l ev go, debug_given a = true -> nfc_ok (w_uenv w) -> locale_ok (w_locale w) -> wanted a (Z.lor f IDN2_NFC_INPUT) ->
  process_all w a l f = Ok (ev, go) -> trace w a (Z.lor f IDN2_NFC_INPUT) l (logged ev).
Proof.
  intros w a f l. induction l as [|x l IH]; intros ev go D K LO W E; cbn [process_all] in E; [injection E as <- <-; constructor|].
  destruct (process_input w a x f) as [[e1 g1]|rc| |] eqn:E1; cbn [bind] in E; try discriminate E.
  destruct (trace_one w a f x e1 g1 D K LO W E1) as (s & C & [(-> & S & LG)|[(-> & NW & NC & [r R] & LG)|(-> & [rc R] & LG)]]).
  - destruct (process_all w a l f) as [[e2 g2]|rc| |] eqn:E2; cbn [bind] in E; try discriminate E. injection E as <- <-.
    rewrite logged_app, LG. cbn [app]. eapply tr_command; [exact C | exact S | exact (IH e2 g2 D K LO W eq_refl)].
  - destruct (process_all w a l f) as [[e2 g2]|rc| |] eqn:E2; cbn [bind] in E; try discriminate E. injection E as <- <-.
    rewrite logged_app, LG. cbn [app]. eapply tr_name; [exact C | exact NW | exact NC | exact R | exact (IH e2 g2 D K LO W eq_refl)].
  - injection E as <- <-. rewrite LG. eapply tr_stop; eassumption.
Qed.
Lemma trace_strings : forall w a f l d, trace w a f l d -> Forall bytes l -> Forall (fun e => c_string (snd e)) d.
Proof.
  induction 1 as [|x xs s d C S T IH|x xs s r d C N1 N2 R T IH|x xs s rc C R]; intros F; [constructor | | |]; inversion F; subst.
  - now apply IH.
  - assert (c_string s) by (eapply content_c_string; eassumption). constructor; [assumption|]. constructor; [assumption|]. now apply IH.
  - constructor; [|constructor]. eapply content_c_string; eassumption.
Qed.
Lemma getlines_bytes : forall s, bytes s -> Forall bytes (getlines s).
Proof.
  intros s B. induction B as [|c s C B IH]; [constructor|]. cbn [getlines]. destruct (c =? 10).
  - constructor; [repeat constructor; exact (proj1 C) || exact (proj2 C) | exact IH].
  - destruct (getlines s) as [|l ls]; [repeat constructor; exact (proj1 C) || exact (proj2 C)|]. inversion IH; subst. constructor; [|assumption]. constructor; assumption.
Qed.

(** The names that a run deals with. *)
Lemma debug_run : forall w a ev st, nfc_ok (w_uenv w) -> locale_ok (w_locale w) -> Forall bytes (inputs a) -> bytes (w_stdin w) ->
  version_given a = false -> help_given a = false -> debug_given a = true -> main w (Some a) = Ok (ev, st) ->
  exists f given, wanted a f /\ ((inputs a <> [] /\ given = inputs a) \/ (inputs a = [] /\ lines (w_stdin w) given)) /\
    trace w a f given (logged ev) /\ dumps_of (w_locale w) (logged ev) (dumped (w_locale w) ev).
Proof.
  intros w a ev st K LO BI BS V H D E. unfold main in E. rewrite V, H in E.
  set (idle := negb (quiet_given a) && _ && w_tty w) in E. set (pre := (if idle then [Greeting] else []) ++ _) in E.
  assert (P1 : logged pre = []) by (unfold pre; rewrite !logged_app; destruct idle, (debug_given a); reflexivity).
  clearbody pre. clear idle. exists (Z.lor (cli_flags a) IDN2_NFC_INPUT).
  assert (W : wanted a (Z.lor (cli_flags a) IDN2_NFC_INPUT)) by apply flags_wanted.
  assert (W' : wanted a (Z.lor (Z.lor (cli_flags a) IDN2_NFC_INPUT) IDN2_NFC_INPUT)) by (rewrite lor_lor; exact W).
  assert (FIN : forall given d, trace w a (Z.lor (cli_flags a) IDN2_NFC_INPUT) given d -> Forall bytes given -> logged ev = d ->
    trace w a (Z.lor (cli_flags a) IDN2_NFC_INPUT) given (logged ev) /\ dumps_of (w_locale w) (logged ev) (dumped (w_locale w) ev)).
  { intros given d T F <-. split; [exact T|]. rewrite dumped_logged. apply logged_dumps; [exact LO|]. exact (trace_strings _ _ _ _ _ T F). }
  destruct (inputs a) as [|x xs] eqn:I.
  - cbn [process_all bind negb] in E. exists (getlines (w_stdin w)). split; [exact W|]. split; [right; split; [reflexivity | apply lines_total]|].
    destruct (process_all w a (getlines (w_stdin w)) (cli_flags a)) as [[e2 g2]|rc| |] eqn:E2; cbn [bind] in E; try discriminate E.
    apply (FIN _ _ (trace_all w a _ _ e2 g2 D K LO W E2)); [now apply getlines_bytes|].
    destruct g2; cbn [negb] in E; [destruct (w_ferror w)|]; injection E as <- <-; rewrite !logged_app, P1; cbn [app logged flat_map]; rewrite ?app_nil_r; reflexivity.
  - exists (x :: xs). split; [exact W|]. split; [left; split; [discriminate | reflexivity]|].
    destruct (process_all w a (x :: xs) (Z.lor (cli_flags a) IDN2_NFC_INPUT)) as [[e1 g1]|rc| |] eqn:E1; cbn [bind] in E; try discriminate E.
    pose proof (trace_all w a _ _ e1 g1 D K LO W' E1) as T. rewrite lor_lor in T. apply (FIN _ _ T); [exact BI|].
    destruct g1; cbn [negb bind] in E; [destruct (w_ferror w)|]; injection E as <- <-; rewrite !logged_app, P1; cbn [app logged flat_map]; rewrite ?app_nil_r; reflexivity.
Qed.

Lemma debug_back : forall w a ev st w' a' ev' st', nfc_ok (w_uenv w) -> nfc_ok (w_uenv w') -> locale_ok (w_locale w) -> nothing_from_nothing (w_locale w) ->
  w_locale w = w_locale w' -> Forall bytes (inputs a) -> bytes (w_stdin w) -> Forall bytes (inputs a') -> bytes (w_stdin w') ->
  version_given a = false -> help_given a = false -> debug_given a = true -> version_given a' = false -> help_given a' = false -> debug_given a' = true ->
  main w (Some a) = Ok (ev, st) -> main w' (Some a') = Ok (ev', st') ->
  dumped (w_locale w) ev = dumped (w_locale w') ev' -> shown ev = shown ev'.
Proof.
  intros w a ev st w' a' ev' st' K K' LO NN EL B1 B2 B1' B2' V H D V' H' D' E E' X.
  assert (G : forall w a ev st, nfc_ok (w_uenv w) -> locale_ok (w_locale w) -> Forall bytes (inputs a) -> bytes (w_stdin w) ->
    version_given a = false -> help_given a = false -> debug_given a = true -> main w (Some a) = Ok (ev, st) ->
    Forall (fun e => c_string (snd e) /\ snd e <> []) (shown ev)).
  { clear. intros w a ev st K LO BI BS V H D E. destruct (debug_run w a ev st K LO BI BS V H D E) as (f & given & _ & GI & T & _).
    assert (BG : Forall bytes given).
    { destruct GI as [[_ ->]|[_ LI]]; [exact BI|]. rewrite (lines_getlines _ _ LI). now apply getlines_bytes. }
    pose proof (trace_strings _ _ _ _ _ T BG) as C. rewrite shown_logged. apply Forall_forall. intros e I. apply filter_In in I. destruct I as [I J].
    split; [exact (proj1 (Forall_forall _ _) C e I)|]. destruct e as [p [|c s]]; [discriminate J | discriminate]. }
  rewrite <- EL in X. rewrite !(dumped_shown (w_locale w)) in X by assumption.
  apply (dumps_back (w_locale w)); [exact LO | exact (G w a ev st K LO B1 B2 V H D E) | | exact X].
  rewrite EL in LO. exact (G w' a' ev' st' K' LO B1' B2' V' H' D' E').
Qed.
Lemma debug_off : forall w a ev st, debug_given a = false -> main w (Some a) = Ok (ev, st) -> dumped (w_locale w) ev = [].
Proof.
  intros w a ev st D E. rewrite dumped_logged. assert (logged ev = []) as ->; [|reflexivity].
  assert (ONE : forall x f e g, process_input w a x f = Ok (e, g) -> logged e = []).
  { intros x f e g X. rewrite process_input_eq in X. cbv zeta in X. rewrite D in X.
    destruct (eq_string _ show_w); [injection X as <- <-; reflexivity|]. destruct (eq_string _ show_c); [injection X as <- <-; reflexivity|].
    destruct (calls w a f _ _) as [[rc o]|rc| |]; cbn [bind] in X; try discriminate X. destruct (rc =? IDN2_OK); [|injection X as <- <-; reflexivity].
    destruct o as [[r|]|]; try discriminate X. injection X as <- <-. reflexivity. }
  assert (ALL : forall l f e g, process_all w a l f = Ok (e, g) -> logged e = []).
  { induction l as [|x l IH]; intros f e g X; cbn [process_all] in X; [injection X as <- <-; reflexivity|].
    destruct (process_input w a x f) as [[e1 g1]|rc| |] eqn:E1; cbn [bind] in X; try discriminate X. apply ONE in E1.
    destruct g1; [|injection X as <- <-; exact E1]. destruct (process_all w a l f) as [[e2 g2]|rc| |] eqn:E2; cbn [bind] in X; try discriminate X.
    injection X as <- <-. rewrite logged_app, E1. exact (IH f e2 g2 E2). }
  unfold main in E. destruct (version_given a); [injection E as <- <-; reflexivity|]. destruct (help_given a); [injection E as <- <-; reflexivity|].
  set (idle := negb (quiet_given a) && _ && w_tty w) in E. set (pre := (if idle then [Greeting] else []) ++ _) in E.
  assert (P1 : logged pre = []) by (unfold pre; rewrite !logged_app; destruct idle, (debug_given a); reflexivity).
  clearbody pre. clear idle. destruct (process_all w a (inputs a) _) as [[e1 g1]|rc| |] eqn:E1; cbn [bind] in E; try discriminate E. apply ALL in E1.
  destruct g1; cbn [negb] in E; [|injection E as <- <-; now rewrite logged_app, P1, E1].
  destruct (match inputs a with [] => _ | _ => _ end) as [[e2 g2]|rc| |] eqn:E2; cbn [bind] in E; try discriminate E.
  assert (logged e2 = []) by (destruct (inputs a); [exact (ALL _ _ _ _ E2) | injection E2 as <- <-; reflexivity]).
  destruct g2; cbn [negb] in E; [destruct (w_ferror w)|]; injection E as <- <-; rewrite !logged_app, P1, E1, H; reflexivity.
Qed.
