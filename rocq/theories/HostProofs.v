(** Proofs for C79. *)
From Verif Require Import Base PunyBase Uenv DataTypes Tables SpecTables SpecPuny SpecUtf8 SpecContext SpecBidi SpecLabel SpecNfc SpecLookup SpecRegister SpecToAscii SpecHost
  FlagRel
  Utf8Proofs MapProofs Lookup LookupTr46 LookupIdem LookupTop StableProofs ToAsciiProofs DataUcd Ucd UcdProofs.

(** ** RFC 3492: what an encoding is made of *)
Lemma varint_chars : forall b k s v, rfc_varint b k s v -> s <> [] /\ Forall (fun c => lower_or_digit c \/ 65 <= c <= 90) s.
Proof.
  assert (D : forall c d, rfc_digit c d -> lower_or_digit c \/ 65 <= c <= 90) by (intros c d H; inversion H; unfold lower_or_digit; lia).
  induction 1 as [k c d H _|k c d s v H _ _ (_ & IH)]; split; try discriminate; constructor; eauto.
Qed.
Lemma steps_chars : forall o n i b s L, rfc_steps o n i b s L ->
  Forall (fun c => lower_or_digit c \/ 65 <= c <= 90) s /\ incl o L /\ (s = [] -> L = o).
Proof.
  induction 1 as [o n i b|o n i b s rest q b' x y L n' i' V _ _ E _ _ _ (I1 & I2 & I3)].
  - repeat split; [constructor|apply incl_refl].
  - destruct (varint_chars _ _ _ _ V) as (N & F). repeat split.
    + apply Forall_app. auto.
    + subst o. intros c H. apply I2. apply in_app_iff in H. apply in_app_iff. cbn [In]. tauto.
    + intros X. apply app_eq_nil in X. tauto.
Qed.
Lemma decodes_chars : forall e p, rfc_decodes e p -> not_ascii p -> all_ascii e -> Forall (fun c => ~ (65 <= c <= 90)) e ->
  Forall (fun c => c = 45 \/ lower_or_digit c \/ In c p) e /\ e <> [] /\ forall r, e <> r ++ [45].
Proof.
  intros e p D N A U.
  assert (G : forall o s, rfc_steps o 128 0 72 s p -> ~ In 45 s -> Forall (fun c => c < 128) o -> Forall (fun c => ~ (65 <= c <= 90)) s ->
     Forall (fun c => c = 45 \/ lower_or_digit c \/ In c p) s /\ s <> [] /\ (forall r, s <> r ++ [45]) /\ incl o p).
  { intros o s S I O F. destruct (steps_chars _ _ _ _ _ _ S) as (S1 & S2 & S3). repeat split; auto.
    - rewrite Forall_forall in *. intros c H. specialize (S1 c H). specialize (F c H). tauto.
    - intros X. specialize (S3 X). subst. unfold not_ascii in N. apply Exists_exists in N. destruct N as (c & C1 & C2).
      rewrite Forall_forall in O. specialize (O c C1). lia.
    - intros r X. subst s. apply I. apply in_app_iff. right. now left. }
  destruct D as [s L I S|bs s L B I S].
  - destruct (G [] s S I) as (G1 & G2 & G3 & _); auto.
  - apply Forall_app in U. destruct U as (_ & U). inversion U; subst.
    unfold all_ascii in A. apply Forall_app in A. destruct A as (A & _).
    destruct (G bs s S I A) as (G1 & G2 & G3 & G4); auto. repeat split.
    + apply Forall_app. split; [|constructor; auto]. apply Forall_forall. intros c H. right. right. auto.
    + intros X. destruct bs; discriminate.
    + intros r X. destruct (exists_last G2) as (s' & c & ->).
      rewrite app_comm_cons, app_assoc in X. apply app_inj_tail in X. destruct X as (_ & ->). apply I. apply in_app_iff. right. now left.
Qed.

(** ** ASCII characters that are valid under STD3 *)
Lemma valid_ascii : forall c, 0 <= c < 128 -> status_of c = Valid \/ status_of c = Deviation -> kept_char c = true.
Proof.
  intros c H. rewrite status_ascii by auto. unfold ascii_status, kept_char.
  destruct ((65 <=? c) && (c <=? 90)); [intros [?|?]; discriminate|].
  destruct (_ || _) eqn:E; intros [X|X]; try discriminate; rewrite ?orb_true_iff in *; tauto.
Qed.
Lemma kept_ldh : forall c, kept_char c = true -> lower_ldh c \/ c = 46.
Proof. intros c. unfold kept_char, lower_ldh. rewrite !orb_true_iff, !andb_true_iff, !Z.leb_le, !Z.eqb_eq. lia. Qed.
Lemma ok_status_ldh : forall tr l, ok_status l tr false -> Forall (fun c => 0 <= c -> c < 128 -> c <> 46 -> lower_ldh c) l.
Proof.
  intros tr l H. eapply Forall_impl; [|exact H]. cbv beta. intros c X P L D.
  assert (V : status_of c = Valid \/ status_of c = Deviation) by (destruct X as [X|[(_ & X)|(X & _)]]; auto; discriminate).
  apply valid_ascii in V; [|lia]. apply kept_ldh in V. tauto.
Qed.

Lemma lower_ldh_lower : forall c, lower_or_digit c -> lower_ldh c. Proof. unfold lower_or_digit, lower_ldh. lia. Qed.

Lemma ace_host : forall e p, rfc_decodes e p -> not_ascii p -> all_ascii e -> Forall (fun c => ~ (65 <= c <= 90)) e -> zlen e <= 59 ->
  Forall (fun c => In c p -> lower_ldh c) e -> host_label (ace e).
Proof.
  intros e p D N A U L H. destruct (decodes_chars e p D N A U) as (C & E & T). unfold host_label, ace. repeat split.
  - discriminate.
  - rewrite !zlen_cons. lia.
  - repeat (constructor; [unfold lower_ldh; lia|]). rewrite Forall_forall in *. intros c I. specialize (C c I). specialize (H c I).
    destruct C as [->|[C|C]]; [unfold lower_ldh; lia|now apply lower_ldh_lower|auto].
  - intros r X. discriminate.
  - intros r X. destruct (exists_last E) as (e' & c & ->). rewrite !app_comm_cons in X. apply app_inj_tail in X. destruct X as (_ & ->). now apply (T e').
  - congruence.
  - congruence.
Qed.

Lemma xn_or_not : forall s : list Z, {xn s} + {~ xn s}.
Proof.
  intros s. destruct s as [|a [|b [|c [|d r] ] ] ]; try (right; intros (t & X); discriminate).
  destruct (Z.eq_dec a 120) as [->|]; [|right; intros (t & X); congruence]. destruct (Z.eq_dec b 110) as [->|]; [|right; intros (t & X); congruence].
  destruct (Z.eq_dec c 45) as [->|]; [|right; intros (t & X); congruence]. destruct (Z.eq_dec d 45) as [->|]; [|right; intros (t & X); congruence].
  left. now exists r.
Qed.

Section S.
  Variable U : uenv.
  Hypothesis K : nfc_ok U.

  Lemma label_host : forall f s d, opt_std3 f = true -> opt_no_roundtrip f = false \/ Forall (fun c => c <> 95 /\ ~ (65 <= c <= 90)) s -> Forall scalar s -> ~ In 46 s ->
    tr46_label U f s d -> d = [] \/ host_label d.
  Proof.
    intros f s d S R SC I H.
    assert (P : forall c, In c s -> 0 <= c) by (intros c X; rewrite Forall_forall in SC; specialize (SC c X); unfold scalar in SC; lia).
    destruct H as [A X (_ & H2 & (H3 & H4) & _ & H5) L|e p E L (D1 & D2 & D3 & D4 & _) (_ & _ & _ & _ & H5) _ M _|e p E L (D1 & D2 & D3 & D4 & _) _ R'|e N X (_ & _ & _ & _ & H5) _ _ E L].
    - destruct s as [|c0 s0]; [now left|right]. unfold host_label. repeat split; auto; try discriminate.
      + rewrite S in H5. apply ok_status_ldh in H5. unfold all_ascii in A. rewrite Forall_forall in *. intros c C. apply H5; auto. intros ->. auto.
      + exfalso. apply H2. exists a, b, r. auto.
      + exfalso. apply H2. exists a, b, r. auto.
    - right. rewrite S in H5. apply ok_status_ldh in H5. rewrite <- M.
      assert (A : Forall (fun c => c < 128 /\ c <> 46 /\ ~ (65 <= c <= 90)) (canon e)).
      { rewrite M. apply Forall_map. eapply Forall_impl; [|exact D1]. cbv beta. intros c C. unfold ldh_or_underscore in C. unfold lower.
        destruct ((65 <=? c) && (c <=? 90)) eqn:Q; rewrite ?andb_true_iff, ?andb_false_iff, ?Z.leb_le, ?Z.leb_gt in Q; lia. }
      apply (ace_host (canon e) p); auto.
      + eapply Forall_impl; [|exact A]. cbv beta. tauto.
      + eapply Forall_impl; [|exact A]. cbv beta. tauto.
      + rewrite M. unfold zlen in *. now rewrite map_length.
      + rewrite Forall_forall in *. intros c C J. specialize (A c C). apply (H5 c J); try tauto. specialize (D3 c J). unfold permitted in D3. lia.
    - right. destruct R as [R|R]; [congruence|]. rewrite E in R |- *. unfold ace in R. do 4 (apply Forall_inv_tail in R).
      assert (C : canon e = e).
      { clear - R. induction R as [|c e (H1 & H2) R IH]; [reflexivity|]. cbn [canon]. destruct (existsb _ _); [now rewrite IH|].
        assert (G : forall c, c <> 95 /\ ~ (65 <= c <= 90) -> canon_char c = c).
        { clear. intros c (H1 & H2). unfold canon_char. destruct ((65 <=? c) && (c <=? 90)) eqn:Q; [rewrite andb_true_iff, !Z.leb_le in Q; lia|].
          destruct (Z.eqb_spec c 95); [lia|auto]. }
        assert (Forall (fun c => c <> 95 /\ ~ (65 <= c <= 90)) (c :: e)) as R' by (constructor; auto).
        clear - R' G. induction R' as [|d e' H R IH]; [reflexivity|]. cbn [map]. now rewrite IH, G. }
      rewrite C in D2. assert (A : Forall lower_ldh e).
      { rewrite Forall_forall in *. intros c I'. specialize (D1 c I'). specialize (R c I'). unfold ldh_or_underscore in D1. unfold lower_ldh. lia. }
      apply (ace_host e p); auto.
      + eapply Forall_impl; [|exact A]. cbv beta. unfold lower_ldh. intros; lia.
      + eapply Forall_impl; [|exact A]. cbv beta. unfold lower_ldh. intros; lia.
      + eapply Forall_impl; [|exact A]. cbv beta. tauto.
    - right. rewrite S in H5. apply ok_status_ldh in H5. destruct E as ((ds & D & E) & R3).
      assert (A : Forall (fun c => lower_ldh c) e).
      { rewrite E. apply Forall_app. split; [|apply Forall_app; split].
        - apply Forall_forall. intros c C. apply filter_In in C. destruct C as (C1 & C2). apply Z.ltb_lt in C2. rewrite Forall_forall in H5. apply H5; auto.
          intros ->. auto.
        - destruct (_ =? 0); [constructor|constructor; [unfold lower_ldh; lia|constructor] ].
        - eapply Forall_impl; [|exact D]. intros c. apply lower_ldh_lower. }
      apply (ace_host e s); auto.
      + eapply Forall_impl; [|exact A]. cbv beta. unfold lower_ldh. intros; lia.
      + eapply Forall_impl; [|exact A]. cbv beta. unfold lower_ldh. intros; lia.
      + eapply Forall_impl; [|exact A]. cbv beta. tauto.
  Qed.

  Lemma map_clean : forall tr l x c, In x (uts46_map tr true l) -> c = 95 \/ 65 <= c <= 90 -> x = c \/ status_of x = Mapped -> False.
  Proof.
    intros tr l x c I G J. unfold uts46_map in I. apply in_flat_map in I. destruct I as (y & _ & I). apply map1_stable in I. unfold map1 in I. destruct J as [->|J].
    - rewrite status_ascii in I by lia. unfold ascii_status in I. destruct ((65 <=? c) && (c <=? 90)) eqn:E.
      + rewrite andb_true_iff, !Z.leb_le in E. rewrite mapping_upper in I by lia. assert (c + 32 = c) by congruence. lia.
      + assert (c = 95) as -> by (rewrite andb_false_iff, !Z.leb_gt in E; lia). discriminate.
    - pose proof (mapping_status x x) as M. rewrite J in I, M. rewrite I in M. specialize (M (or_introl eq_refl)). congruence.
  Qed.
  Lemma host_names : forall src f r ds, opt_no_roundtrip f = false \/ nfc_case U -> c_string src -> zlen src < two64 ->
    opt_no_tr46 f = false -> opt_std3 f = true ->
    lookup_u8 U src f = Ok r -> dotted ds r -> host_labels ds.
  Proof.
    intros src f r ds R C L N S H DD. apply (lookup_exact U K) in H; auto. destruct H as (_ & H). rewrite N in H.
    destruct H as (l & n & ls & ds' & H1 & _ & _ & H4 & (D1 & D2 & D3) & H6 & H7 & _).
    assert (ds = ds') as -> by (apply dotted_iff in DD, H7; congruence).
    assert (SC : Forall scalar n).
    { apply (nfc_scalar U K _ _) in H4; auto. apply (uts46_map_ok (opt_transitional f) (opt_std3 f) l); [apply (utf8_scalar _ _ H1)|apply (utf8_c_string _ _ H1 C)]. }
    assert (SL : Forall (Forall scalar) ls).
    { apply Forall_forall. intros x X. apply Forall_forall. intros c Y. rewrite Forall_forall in SC. apply SC. rewrite D3. eapply join_in; eauto. }
    assert (RL : Forall (fun s => opt_no_roundtrip f = false \/ Forall (fun c => c <> 95 /\ ~ (65 <= c <= 90)) s) ls).
    { apply Forall_forall. intros x X. destruct R as [R|R]; [now left|right]. apply Forall_forall. intros c Y.
      assert (I : In c n) by (rewrite D3; eapply join_in; eauto).
      assert (G : ~ (c = 95 \/ 65 <= c <= 90)); [|lia]. intros G. destruct (R _ _ _ H4 I G) as (y & Iy & J). rewrite S in Iy. eapply map_clean; eauto. }
    unfold host_labels. clear - H6 SL D2 S RL. induction H6 as [|x d ls ds H F IH]; [constructor|].
    inversion SL; subst. inversion D2; subst. inversion RL; subst. constructor; auto. eapply label_host; eauto.
  Qed.

  (** ** ASCII names *)
  Lemma map1_std3 : forall tr c, 0 <= c < 128 -> map1 tr true c = (if kept_char (lower c) then [lower c] else []) /\ status_of c <> Disallowed.
  Proof.
    intros tr c H. unfold map1, lower. rewrite status_ascii by auto. unfold ascii_status.
    destruct ((65 <=? c) && (c <=? 90)) eqn:E.
    - rewrite andb_true_iff, !Z.leb_le in E. rewrite mapping_upper by lia. split; [|discriminate].
      replace (kept_char (c + 32)) with true; [reflexivity|]. symmetry. unfold kept_char. rewrite !orb_true_iff, !andb_true_iff, !Z.leb_le, !Z.eqb_eq. lia.
    - change (((97 <=? c) && (c <=? 122)) || ((48 <=? c) && (c <=? 57)) || (c =? 45) || (c =? 46)) with (kept_char c).
      destruct (kept_char c); split; try reflexivity; discriminate.
  Qed.
  Lemma map_std3 : forall tr s, Forall (fun c => 0 <= c < 128) s -> uts46_map tr true s = kept s /\ ~ Exists (fun c => status_of c = Disallowed) s.
  Proof.
    intros tr s. induction 1 as [|c s H F (IH1 & IH2)]; [split; [reflexivity|intros X; inversion X]|].
    destruct (map1_std3 tr c H) as (M1 & M2). split.
    - unfold uts46_map, kept in *. cbn [flat_map map filter]. rewrite M1, IH1. now destruct (kept_char (lower c)).
    - intros X. inversion X; subst; auto.
  Qed.
  Lemma kept_ok : forall s, Forall (fun c => lower_ldh c \/ c = 46) (kept s).
  Proof. intros s. apply Forall_forall. intros c H. apply filter_In in H. apply kept_ldh. tauto. Qed.
  Lemma kept_ascii : forall s, Forall (fun c => 0 <= c < 128) (kept s).
  Proof. intros s. eapply Forall_impl; [|apply kept_ok]. cbv beta. unfold lower_ldh. lia. Qed.
  Lemma lower_ldh_id : forall s, Forall lower_ldh s -> map lower s = s.
  Proof.
    induction 1 as [|c s H F IH]; [reflexivity|]. cbn [map]. rewrite IH. f_equal. unfold lower. destruct (_ && _) eqn:E; auto.
    rewrite andb_true_iff, !Z.leb_le in E. unfold lower_ldh in H. lia.
  Qed.
  Lemma dotted_ldh : forall ls s, dotted ls (kept s) -> Forall (Forall lower_ldh) ls.
  Proof.
    intros ls s (_ & D2 & D3). apply Forall_forall. intros x X. apply Forall_forall. intros c Y.
    pose proof (kept_ok s) as O. rewrite D3 in O. rewrite Forall_forall in O. destruct (O c) as [|Z]; auto; [eapply join_in; eauto|].
    subst c. rewrite Forall_forall in D2. now elim (D2 x X).
  Qed.

  Lemma ldh_label : forall f s d, opt_no_roundtrip f = false \/ ~ xn s -> Forall lower_ldh s -> tr46_label U f s d -> d = s.
  Proof.
    intros f s d R F H. destruct H as [A X _ L|e p E _ _ _ _ _ _|e p E _ _ _ _|e N _ _ _ _ _ _]; auto.
    - subst s. unfold ace. inversion F; subst. inversion H2; subst. inversion H4; subst. inversion H6; subst. now rewrite lower_ldh_id.
    - exfalso. unfold not_ascii in N. apply Exists_exists in N. destruct N as (c & C1 & C2). rewrite Forall_forall in F. specialize (F c C1). unfold lower_ldh in F. lia.
  Qed.
  Lemma ldh_labels : forall f ls ds, Forall (fun s => opt_no_roundtrip f = false \/ ~ xn s) ls -> Forall (Forall lower_ldh) ls ->
    Forall2 (tr46_label U f) ls ds -> ds = ls.
  Proof.
    intros f ls ds R F H. induction H as [|x d ls ds H H2 IH]; [reflexivity|]. inversion R; subst. inversion F; subst. rewrite IH by auto. f_equal. eapply ldh_label; eauto.
  Qed.

  Lemma ascii_inv : forall s f r, ascii_string s -> zlen s < two64 -> opt_no_tr46 f = false -> opt_std3 f = true ->
    lookup_u8 U s f = Ok r -> ~ bad_flags f /\ exists ls ds, dotted ls (kept s) /\ Forall2 (tr46_label U f) ls ds /\ dotted ds r /\ name_fits ds r.
  Proof.
    intros s f r A L N S H.
    assert (C : c_string s) by (eapply Forall_impl; [|exact A]; cbv beta; lia).
    assert (A1 : Forall (fun c => 0 <= c < 128) s) by (eapply Forall_impl; [|exact A]; cbv beta; lia).
    apply (lookup_exact U K) in H; auto. destruct H as (B & H). rewrite N in H. split; auto.
    destruct H as (l & n & ls & ds & H1 & _ & _ & H4 & H5 & H6 & H7 & H8).
    assert (l = s) as -> by (eapply utf8_ascii_eq; [exact H1|]; eapply Forall_impl; [|exact A]; cbv beta; lia).
    destruct (map_std3 (opt_transitional f) s A1) as (M & _). rewrite S, M, (nfc_ascii U K) in H4 by apply kept_ascii. 
    assert (n = kept s) as -> by congruence. exists ls, ds. auto.
  Qed.
  Lemma ascii_result : forall s f r, ascii_string s -> zlen s < two64 -> opt_no_tr46 f = false -> opt_std3 f = true -> opt_no_roundtrip f = false ->
    lookup_u8 U s f = Ok r -> r = kept s.
  Proof.
    intros s f r A L N S R H. destruct (ascii_inv s f r A L N S H) as (_ & ls & ds & D & F & D2 & _).
    assert (ds = ls) as ->. { eapply ldh_labels; eauto; [apply Forall_forall; auto|eapply dotted_ldh; eauto]. }
    destruct D as (_ & _ & ->). destruct D2 as (_ & _ & ->). reflexivity.
  Qed.

  Lemma host_tr46 : forall f d, (forall c, lower_ldh c -> ue_mark U c = false) -> ~ xn d -> d = [] \/ host_label d -> tr46_label U f d d.
  Proof.
    intros f d M X H.
    assert (G : Forall lower_ldh d /\ zlen d <= 63 /\ ok_hyphen_startend d /\ ok_2hyphen d).
    { destruct H as [->|(H1 & H2 & H3 & H4 & H5 & H6)].
      - repeat split; try constructor; try (unfold zlen; cbn; lia); try discriminate.
        + intros r E. destruct r; discriminate.
        + intros (a & b & r & E). discriminate.
      - repeat split; auto. intros (a & b & r & E). destruct (H6 a b r E) as (-> & ->). apply X. now exists r. }
    destruct G as (G1 & G2 & G3 & G4). apply t46_ascii; auto.
    - unfold all_ascii. eapply Forall_impl; [|exact G1]. cbv beta. unfold lower_ldh. lia.
    - repeat split; auto.
      + apply (nfc_ascii U K). eapply Forall_impl; [|exact G1]. cbv beta. unfold lower_ldh. lia.
      + apply G3. 
      + apply G3.
      + intros (c & r & -> & E). inversion G1; subst. rewrite M in E by auto. discriminate.
      + eapply Forall_impl; [|exact G1]. cbv beta. intros c L. left. rewrite status_ascii by (unfold lower_ldh in L; lia). unfold ascii_status.
        replace ((65 <=? c) && (c <=? 90)) with false.
        2:{ symmetry. unfold lower_ldh in L. rewrite andb_false_iff, !Z.leb_gt. lia. }
        replace (_ || _) with true; [reflexivity|]. symmetry. unfold lower_ldh in L. rewrite !orb_true_iff, !andb_true_iff, !Z.leb_le, !Z.eqb_eq. lia.
  Qed.

  Lemma plain_host : forall f s d, ~ xn s -> Forall lower_ldh s -> tr46_label U f s d -> s = [] \/ host_label s.
  Proof.
    intros f s d X F H. destruct H as [A _ (_ & H2 & (H3 & H4) & _ & H5) L|e p E _ _ _ _ _ _|e p E _ _ _ _|e N _ _ _ _ _ _].
    - destruct s as [|c s]; [now left|right]. repeat split; auto; try discriminate; intros; exfalso; apply H2; eauto.
    - elim X. subst s. now exists e.
    - elim X. subst s. now exists e.
    - exfalso. unfold not_ascii in N. apply Exists_exists in N. destruct N as (c & C1 & C2). rewrite Forall_forall in F. specialize (F c C1). unfold lower_ldh in F. lia.
  Qed.
  Lemma ascii_host_exact : forall s f r ls, (forall c, lower_ldh c -> ue_mark U c = false) ->
    ascii_string s -> zlen s < two64 -> opt_no_tr46 f = false -> opt_std3 f = true ->
    dotted ls (kept s) -> Forall (fun d => ~ xn d) ls ->
    (lookup_u8 U s f = Ok r <-> ~ bad_flags f /\ r = kept s /\ host_labels ls /\ name_fits ls r).
  Proof.
    intros s f r ls M A L N S D X.
    assert (C : c_string s) by (eapply Forall_impl; [|exact A]; cbv beta; lia).
    assert (A1 : Forall (fun c => 0 <= c < 128) s) by (eapply Forall_impl; [|exact A]; cbv beta; lia).
    split.
    - intros H. destruct (ascii_inv s f r A L N S H) as (B & ls' & ds & D' & F & D2 & Q).
      assert (ls' = ls) as -> by (apply dotted_iff in D, D'; congruence).
      pose proof (dotted_ldh _ _ D) as DL.
      assert (ds = ls) as ->. { eapply ldh_labels; eauto. eapply Forall_impl; [|exact X]. cbv beta. auto. }
      split; [auto|]. split; [destruct D as (_ & _ & ->); now destruct D2 as (_ & _ & ->)|]. split; [|auto].
      unfold host_labels. clear - F X DL.
      assert (G : forall ls ds, Forall2 (tr46_label U f) ls ds -> Forall (fun d => ~ xn d) ls -> Forall (Forall lower_ldh) ls -> Forall (fun d => d = [] \/ host_label d) ls).
      { clear. induction 1 as [|x y a b H H2 IH]; intros X DL; [constructor|]. inversion X; subst. inversion DL; subst. constructor; auto. eapply plain_host; eauto. }
      eauto.
    - intros (B & -> & H & Q). apply (lookup_exact U K); auto. split; [auto|]. rewrite N.
      destruct (map_std3 (opt_transitional f) s A1) as (M1 & M2).
      exists s, (kept s), ls, ls. rewrite S, M1. split; [now apply utf8_ascii|]. split; [auto|]. split; [destruct Q; lia|].
      split; [apply (nfc_ascii U K), kept_ascii|]. split; [auto|]. split; [|auto].
      clear - H X M K. induction H as [|d ls Hd F IH]; [constructor|]. inversion X; subst. constructor; auto. now apply host_tr46.
  Qed.
End S.

Lemma ucd_ldh_mark : forall c, lower_ldh c -> ue_mark ucd c = false.
Proof.
  assert (T : forallb (fun c => negb (ue_mark ucd c)) (zrange 128) = true) by (vm_compute; reflexivity).
  intros c H. rewrite forallb_forall in T. specialize (T c). rewrite negb_true_iff in T. apply T. apply zrange_in. unfold lower_ldh in H. lia.
Qed.

Definition shouts (c : Z) : bool := (c =? 95) || ((65 <=? c) && (c <=? 90)).
Transparent idna_tree.
Lemma decomp_shouts : let t := idna_tree in
  forallb (fun e => negb (existsb shouts (snd e)) || match tfind t (fst e) with Some r => match r_status r with Mapped => true | _ => false end | None => false end) ucd_decomp = true.
Proof. vm_compute. reflexivity. Qed.
Global Opaque idna_tree.
Lemma ucd_nfc_case : nfc_case ucd.
Proof.
  intros l m c H I G. cbn [ue_nfc ucd] in H. assert (m = nfc l) as -> by congruence. unfold nfc in I.
  assert (Q : shouts c = true) by (unfold shouts; rewrite orb_true_iff, andb_true_iff, !Z.leb_le, Z.eqb_eq; lia).
  assert (F : Forall (fun c => c < 128 -> In c (flat_map decomp1 l)) (recompose (order (flat_map decomp1 l)))).
  { apply recompose_all.
    - intros a b v E X. exfalso. apply comp_facts in E. destruct E as (_ & _ & E & _). lia.
    - apply Forall_forall. intros x X _. apply (order_in (flat_map decomp1 l) x). exact X. }
  rewrite Forall_forall in F. assert (L128 : c < 128) by lia. specialize (F c I L128). apply in_flat_map in F. destruct F as (x & Ix & Id). exists x. split; [auto|].
  destruct (decomp_cases x) as [X|[(_ & E)|(_ & E)]].
  - destruct (hangul_parts x X) as (_ & P1 & P2 & P3 & _). cbv zeta in *. exfalso. unfold decomp1 in Id. rewrite X in Id. cbv zeta in Id.
    destruct Id as [Id|[Id|Id] ]; [lia|lia|]. destruct (_ =? 0); [destruct Id|destruct Id as [Id|[] ]; lia].
  - rewrite E in Id. destruct Id as [->|[]]. now left.
  - right. pose proof decomp_shouts as T. cbv zeta in T. rewrite forallb_forall in T. specialize (T _ E). cbv beta in T. cbn [fst snd] in T.
    apply orb_true_iff in T. destruct T as [T|T].
    + rewrite negb_true_iff in T. assert (existsb shouts (decomp1 x) = true) by (apply existsb_exists; eauto). congruence.
    + destruct (tfind idna_tree x) as [w|] eqn:W; [|discriminate]. apply tree_row in W.
      Transparent status_of. unfold status_of. rewrite W. destruct (r_status w); try discriminate. reflexivity.
Qed.
Lemma unicode14_hosts : forall src f r ds, c_string src -> zlen src < two64 -> opt_no_tr46 f = false -> opt_std3 f = true ->
  lookup_u8 ucd src f = Ok r -> dotted ds r -> host_labels ds.
Proof. intros src f r ds. apply (host_names ucd ucd_nfc_ok). right. exact ucd_nfc_case. Qed.
Global Opaque status_of.
