(** label() and the label loop of idn2_lookup_u8. *)
From Verif Require Import Base PunyBase Uenv DataTypes SpecUtf8 SpecPuny SpecTables SpecLabel SpecNfc SpecLookup Gentr46 Tr46Map
  Tr46Facts Utf8 Utf8Proofs Idna Puny PunyTop Lookup LabelProofs NfcProofs MapProofs.

(** ** The encoder never shortens. *)
Lemma u32_le : forall x, 0 <= x -> 0 <= u32 x <= x.
Proof. intros x H. unfold u32, two32. pose proof (Z.mod_pos_bound x 4294967296 ltac:(lia)). pose proof (Z.mod_le x 4294967296 H ltac:(lia)). lia. Qed.
Lemma put_len : forall cap o x o', put cap o x = Ok o' -> zlen o' = zlen o + 1.
Proof. intros cap o x o' H. unfold put in H. destruct (zlen o <? cap); [|discriminate]. injection H as <-. rewrite zlen_app. reflexivity. Qed.
Lemma enc_varint_len : forall fuel cap mo o bias q k o', enc_varint fuel cap mo o bias q k = Ok o' -> zlen o + 1 <= zlen o'.
Proof.
  induction fuel as [|fuel IH]; intros cap mo o bias q k o' H; cbn [enc_varint] in H; [discriminate|].
  destruct (mo <=? zlen o); [discriminate|]. destruct (q <? thresh k bias).
  - apply put_len in H. lia.
  - destruct (u32 (36 - thresh k bias) =? 0); [discriminate|]. apply bind_ok in H. destruct H as (o1 & H1 & H2).
    apply put_len in H1. apply IH in H2. lia.
Qed.
Lemma enc_scan_len : forall cap mo b n l st st', enc_scan cap mo b n l st = Ok st' ->
  0 <= e_h st <= zlen (e_out st) -> 0 <= e_h st' <= zlen (e_out st').
Proof.
  induction l as [|c l IH]; intros st st' H I; cbn [enc_scan] in H; [congruence|].
  apply bind_ok in H. destruct H as (d & _ & H). destruct (c =? n).
  - apply bind_ok in H. destruct H as (o & Ho & H). apply bind_ok in H. destruct H as (bias & _ & H).
    apply IH in H; auto. cbn [e_h e_out]. apply enc_varint_len in Ho. pose proof (u32_le (e_h st + 1) ltac:(lia)). lia.
  - apply IH in H; auto.
Qed.
Lemma enc_main_len : forall fuel cap mo b l n st s, enc_main fuel cap mo b l n st = Ok s ->
  0 <= e_h st <= zlen (e_out st) -> zlen l <= zlen s.
Proof.
  induction fuel as [|fuel IH]; intros cap mo b l n st s H I; cbn [enc_main] in H.
  - destruct (e_h st <? zlen l) eqn:E; [discriminate|]. injection H as <-. apply Z.ltb_ge in E. lia.
  - destruct (e_h st <? zlen l) eqn:E; [|injection H as <-; apply Z.ltb_ge in E; lia].
    destruct (u32 (e_h st + 1) =? 0); [discriminate|]. match type of H with (if ?b then _ else _) = _ => destruct b; [discriminate|] end.
    apply bind_ok in H. destruct H as (st' & H1 & H2). apply enc_scan_len in H1; [|exact I]. apply IH in H2; auto.
Qed.
Lemma puny_encode_len : forall L mo cap s, puny_encode L mo cap = Ok s -> zlen L <= zlen s.
Proof.
  intros L mo cap s H. unfold puny_encode in H. destruct (maxint <? zlen L); [discriminate|].
  apply bind_ok in H. destruct H as (o & _ & H). apply bind_ok in H. destruct H as (o' & Ho & H).
  apply enc_main_len in H; auto. cbn [e_h e_out]. pose proof (u32_le (zlen o) (zlen_nonneg _ o)).
  destruct (0 <? u32 (zlen o)); [apply put_len in Ho; lia|]. injection Ho as <-. lia.
Qed.

(** ** u8_to_u32_nfc *)
Inductive norm (U : uenv) (nfc : bool) (l : list Z) : list Z -> Prop :=
| norm_id : norm U nfc l l
| norm_nfc : forall p, nfc = true -> ue_nfc U l = Some p -> norm U nfc l p.
Lemma u8_nfc_ok : forall U src nfc p, u8_to_u32_nfc U src nfc = Ok p ->
  exists l, u8_to_u32 src = Some l /\ norm U nfc l p.
Proof.
  intros U src nfc p H. destruct (u8_to_u32 src) as [l|] eqn:E.
  - exists l. split; [reflexivity|]. destruct nfc.
    + destruct (nfc_or_skip U src l E) as [F|(F & _)]; rewrite F in H.
      * destruct (ue_nfc U l) eqn:EN; [|discriminate]. injection H as <-. now apply norm_nfc.
      * injection H as <-. apply norm_id.
    + unfold u8_to_u32_nfc in H. rewrite E in H. injection H as <-. apply norm_id.
  - unfold u8_to_u32_nfc in H. rewrite E in H. discriminate.
Qed.
Lemma u8_nfc_id : forall U src l nfc, u8_to_u32 src = Some l -> ue_nfc U l = Some l -> u8_to_u32_nfc U src nfc = Ok l.
Proof.
  intros U src l nfc E N. destruct nfc.
  - destruct (nfc_or_skip U src l E) as [F|(F & _)]; rewrite F; [rewrite N; reflexivity|reflexivity].
  - unfold u8_to_u32_nfc. rewrite E. reflexivity.
Qed.
Lemma u8_nfc_safe : forall U src nfc, safe (u8_to_u32_nfc U src nfc).
Proof.
  intros U src nfc. destruct (u8_to_u32 src) as [l|] eqn:E.
  - destruct nfc.
    + destruct (nfc_or_skip U src l E) as [F|(F & _)]; rewrite F; [destruct (ue_nfc U l); exact I|exact I].
    + unfold u8_to_u32_nfc. rewrite E. exact I.
  - unfold u8_to_u32_nfc. rewrite E. exact I.
Qed.
Lemma norm_scalar : forall U nfc l p, nfc_ok U -> Forall scalar l -> norm U nfc l p -> Forall scalar p.
Proof. intros U nfc l p K S H. destruct H; auto. eapply nfc_scalar; eauto. Qed.
Lemma norm_sep : forall U nfc l p x, nfc_ok U -> separator x -> ~ In x l -> norm U nfc l p -> ~ In x p.
Proof. intros U nfc l p x K S N H. destruct H; auto. intros I. apply N. eapply nfc_no_separator; eauto. Qed.
Lemma scalar_u32 : forall l, Forall scalar l -> u32_list l.
Proof. intros l. apply Forall_impl. unfold scalar. lia. Qed.

(** ** label() *)
Lemma ascii_p_iff : forall s, ascii_p s = true <-> Forall (fun b => b < 128) s.
Proof. intros s. unfold ascii_p. rewrite forallb_forall, Forall_forall. split; intros H x Hx; apply H in Hx; now apply Z.ltb_lt. Qed.
Lemma has_ace_iff : forall s, has_ace_prefix s = true <-> xn s.
Proof.
  intros s. split.
  - destruct s as [|a [|b [|c [|d s]]]]; cbn [has_ace_prefix]; try discriminate.
    rewrite !andb_true_iff, !Z.eqb_eq. intros (((-> & ->) & ->) & ->). now exists s.
  - intros (t & ->). reflexivity.
Qed.
Lemma casecmp_refl : forall s, casecmp_eq s s = true.
Proof. induction s; cbn [casecmp_eq]; [reflexivity|]. now rewrite Z.eqb_refl. Qed.

(** What a successful run of lookup.c:185-254 has established. *)
Record tail_ok (U : uenv) (flags : Z) (l p enc : list Z) : Prop := {
  t_norm : norm U (opt_nfc flags) l p;
  t_test : opt_transitional flags = false -> label_test U (label_tests flags) p = Ok tt;
  t_enc : puny_encode p 59 59 = Ok enc
}.
Lemma when_true : forall b t, when b t = Ok tt <-> (b = true -> t = Ok tt).
Proof. intros [] t; cbn [when]; split; auto. intros _ H. discriminate. Qed.
Lemma unit_tt : forall (u : unit), u = tt. Proof. intros []. reflexivity. Qed.

Lemma label_tail_inv : forall U src org flags d, label_tail U src org 63 flags = Ok d ->
  exists l p enc, u8_to_u32 src = Some l /\ tail_ok U flags l p enc /\ d = ace_prefix ++ enc /\
  match org with
  | Some o => casecmp_eq o d = true
  | None => opt_no_roundtrip flags = false -> puny_decode enc 63 63 = Ok p
  end.
Proof.
  intros U src org flags d H. unfold label_tail in H. apply bind_ok in H. destruct H as (p & Hp & H).
  apply bind_ok in H. destruct H as (u & Ht & H). rewrite (unit_tt u) in Ht. rewrite when_true, has_transitional in Ht.
  change (63 <? 4) with false in H. cbv iota in H. apply bind_ok in H. destruct H as (enc & He & H).
  apply u8_nfc_ok in Hp. destruct Hp as (l & Hl & Hn). rewrite has_nfc in Hn. exists l, p, enc. split; [exact Hl|].
  split. { constructor; auto. intros T. apply Ht. now rewrite T. }
  destruct org as [o|].
  - destruct (casecmp_eq o _) eqn:E; [|discriminate]. injection H as <-. auto.
  - rewrite has_no_roundtrip in H. destruct (opt_no_roundtrip flags) eqn:R; cbn [negb] in H; cbv iota in H.
    + injection H as <-. split; [reflexivity|discriminate].
    + change LABEL_MAX with 63 in H. destruct (puny_decode enc 63 63) as [l32| | |] eqn:D; try discriminate.
      destruct (list_eqb p l32) eqn:E; [|discriminate]. apply list_eqb_iff in E. subst l32. injection H as <-. auto.
Qed.
Lemma label_tail_intro : forall U src org flags l p enc,
  u8_to_u32_nfc U src (opt_nfc flags) = Ok p -> tail_ok U flags l p enc ->
  match org with
  | Some o => casecmp_eq o (ace_prefix ++ enc) = true
  | None => opt_no_roundtrip flags = false -> puny_decode enc 63 63 = Ok p
  end ->
  label_tail U src org 63 flags = Ok (ace_prefix ++ enc).
Proof.
  intros U src org flags l p enc Hp T H. unfold label_tail. rewrite has_nfc, Hp. cbn [bind].
  assert (when (negb (has flags IDN2_TRANSITIONAL)) (label_test U (label_tests flags) p) = Ok tt) as ->.
  { apply when_true. rewrite has_transitional. intros N. apply (t_test _ _ _ _ _ T). destruct (opt_transitional flags); [discriminate|reflexivity]. }
  cbn [bind]. change (63 <? 4) with false. cbv iota. change (63 - 4) with 59. rewrite (t_enc _ _ _ _ _ T). cbn [bind].
  destruct org as [o|]; [rewrite H; reflexivity|]. rewrite has_no_roundtrip. destruct (opt_no_roundtrip flags); [reflexivity|]. cbn [negb].
  change LABEL_MAX with 63. rewrite H by reflexivity. assert (list_eqb p p = true) as -> by now apply list_eqb_iff. reflexivity.
Qed.

(** The three ways label() succeeds. *)
Inductive label_ok (U : uenv) (flags : Z) (src : list Z) : list Z -> Prop :=
| lok_plain : Forall (fun b => b < 128) src -> (opt_no_roundtrip flags = false -> ~ xn src) -> zlen src <= 63 -> label_ok U flags src src
| lok_ace : forall t s' l p enc, Forall (fun b => b < 128) src -> opt_no_roundtrip flags = false -> src = ace_prefix ++ t ->
    puny_decode t 63 63 = Ok l -> u32_to_u8 l = Some s' -> tail_ok U flags l p enc ->
    casecmp_eq src (ace_prefix ++ enc) = true -> label_ok U flags src (ace_prefix ++ enc)
| lok_uni : forall l p enc, ~ Forall (fun b => b < 128) src -> u8_to_u32 src = Some l -> tail_ok U flags l p enc ->
    (opt_no_roundtrip flags = false -> puny_decode enc 63 63 = Ok p) -> label_ok U flags src (ace_prefix ++ enc).
Lemma label_inv : forall U src flags d, label U src 63 flags = Ok d -> label_ok U flags src d.
Proof.
  intros U src flags d H. unfold label in H. destruct (ascii_p src) eqn:A.
  - apply ascii_p_iff in A. rewrite has_no_roundtrip in H.
    destruct (negb (opt_no_roundtrip flags) && has_ace_prefix src) eqn:E.
    + rewrite andb_true_iff, negb_true_iff, has_ace_iff in E. destruct E as (E1 & (t & E2)).
      apply bind_ok in H. destruct H as (l32 & D & H). apply bind_ok in H. destruct H as (s' & C & H).
      destruct (u32_to_u8 l32) as [s2|] eqn:C2; [|discriminate]. injection C as ->.
      apply label_tail_inv in H. destruct H as (l & p & enc & Hl & T & -> & CC).
      rewrite (u32_u8_u32 _ _ C2) in Hl. injection Hl as <-. subst src. cbn [skipn] in D. change LABEL_MAX with 63 in D.
      eapply (lok_ace U flags _ t _ l32 p enc); eauto.
    + change LABEL_MAX with 63 in H. destruct (63 <? zlen src) eqn:L; [discriminate|].
      injection H as <-. apply Z.ltb_ge in L. constructor; auto. intros R X. apply has_ace_iff in X.
      rewrite R, X in E. discriminate.
  - apply label_tail_inv in H. destruct H as (l & p & enc & Hl & T & -> & CC). eapply lok_uni; eauto.
    intros F. apply ascii_p_iff in F. congruence.
Qed.
Lemma label_plain : forall U flags src, Forall (fun b => b < 128) src -> (opt_no_roundtrip flags = false -> ~ xn src) -> zlen src <= 63 ->
  label U src 63 flags = Ok src.
Proof.
  intros U flags src A N L. unfold label. assert (ascii_p src = true) as -> by now apply ascii_p_iff. rewrite has_no_roundtrip.
  destruct (negb (opt_no_roundtrip flags) && has_ace_prefix src) eqn:E.
  - rewrite andb_true_iff, negb_true_iff, has_ace_iff in E. destruct E as (E1 & E2). exfalso. now apply N.
  - change LABEL_MAX with 63. destruct (63 <? zlen src) eqn:E2; [apply Z.ltb_lt in E2; lia|reflexivity].
Qed.
Lemma label_ace : forall U flags t l s' enc, Forall (fun b => b < 128) t -> opt_no_roundtrip flags = false ->
  puny_decode t 63 63 = Ok l -> u32_to_u8 l = Some s' -> ue_nfc U l = Some l -> tail_ok U flags l l enc ->
  casecmp_eq (ace_prefix ++ t) (ace_prefix ++ enc) = true -> label U (ace_prefix ++ t) 63 flags = Ok (ace_prefix ++ enc).
Proof.
  intros U flags t l s' enc A R D C N T CC. unfold label. assert (ascii_p (ace_prefix ++ t) = true) as ->.
  { apply ascii_p_iff. apply Forall_app. split; auto. repeat constructor. }
  rewrite has_no_roundtrip, R. change (has_ace_prefix (ace_prefix ++ t)) with true. cbn [negb andb]. cbv iota.
  change (skipn 4 (ace_prefix ++ t)) with t. change LABEL_MAX with 63. rewrite D. cbn [bind]. rewrite C. cbn [conv bind].
  eapply label_tail_intro; eauto. apply u8_nfc_id; auto. now apply u32_u8_u32.
Qed.

(** ** Shape of the encoded label. *)
Lemma bytes_ldh_in : forall c, lower_or_digit c -> 0 < c < 128 /\ c <> 46.
Proof. unfold lower_or_digit. lia. Qed.
Lemma enc_shape : forall p enc, Forall scalar p -> ~ In 0 p -> ~ In 46 p -> puny_encode p 59 59 = Ok enc ->
  zlen enc <= 59 /\ Forall (fun b => 0 < b < 128 /\ b <> 46) enc /\
  (forall b, In b enc -> In b p \/ b = 45 \/ lower_or_digit b).
Proof.
  intros p enc S N0 N46 H. pose proof (encode_shape p 59 59 (scalar_u32 _ S) ltac:(unfold two64; lia) ltac:(lia)) as E.
  rewrite H in E. destruct E as (E1 & _ & ds & E2 & E3). split; [exact E1|].
  assert (AP : forall b, In b (ascii_part p) -> In b p /\ 0 <= b < 128).
  { intros b I. unfold ascii_part in I. apply filter_In in I. destruct I as (I & L). split; [exact I|].
    apply Z.ltb_lt in L. rewrite Forall_forall in S. specialize (S b I). unfold scalar in S. lia. }
  assert (G : forall b, In b enc -> In b p /\ 0 <= b < 128 \/ b = 45 \/ lower_or_digit b).
  { intros b I. rewrite E3 in I. apply in_app_or in I. destruct I as [I|I]; [left; now apply AP|]. apply in_app_or in I. destruct I as [I|I].
    - right. left. destruct (_ =? 0); [destruct I|]. destruct I as [<-|[]]. reflexivity.
    - right. right. rewrite Forall_forall in E2. now apply E2. }
  split.
  - apply Forall_forall. intros b I. destruct (G b I) as [(P & R)|[->|L]].
    + assert (b <> 0) by congruence. assert (b <> 46) by congruence. lia.
    + lia.
    + now apply bytes_ldh_in.
  - intros b I. destruct (G b I) as [(P & R)|X]; auto.
Qed.

(** A label as it comes out of splitting a C string. *)
Definition plain_label (s : list Z) : Prop := Forall (fun b => 0 < b <= 255) s /\ ~ In 46 s /\ zlen s < two64.
Lemma u8_label : forall s l, plain_label s -> u8_to_u32 s = Some l -> Forall scalar l /\ ~ In 0 l /\ ~ In 46 l.
Proof.
  intros s l (B & N & _) H. apply u8_to_u32_iff in H; [|now apply c_string_bytes].
  split; [now apply utf8_scalar in H|]. split.
  - intros I. apply (utf8_In _ _ 0 H) in I; [|lia]. rewrite Forall_forall in B. apply B in I. lia.
  - intros I. apply (utf8_In _ _ 46 H) in I; [|lia]. auto.
Qed.
Lemma decoded : forall t l, puny_decode t 63 63 = Ok l -> zlen t < two64 ->
  zlen l <= 63 /\ zlen l <= zlen t /\ l <> [] /\ Forall permitted l /\ Forall (fun c => c < 128 -> ldh_or_underscore c) l /\ Exists (fun c => 128 <= c) l.
Proof.
  intros t l D L. pose proof (decode_safe t 63 63 ltac:(lia) ltac:(lia) L) as S. rewrite D in S. exact S.
Qed.
Lemma decoded_label : forall t l s', puny_decode t 63 63 = Ok l -> zlen t < two64 -> u32_to_u8 l = Some s' ->
  Forall scalar l /\ ~ In 0 l /\ ~ In 46 l.
Proof.
  intros t l s' D L C. split; [now apply u32_to_u8_scalar in C|].
  destruct (decoded t l D L) as (_ & _ & _ & _ & F & _). rewrite Forall_forall in F.
  split; intros I; apply F in I; unfold ldh_or_underscore in I; lia.
Qed.
Lemma tail_shape : forall U flags l p enc, nfc_ok U -> Forall scalar l -> ~ In 0 l -> ~ In 46 l -> tail_ok U flags l p enc ->
  Forall scalar p /\ ~ In 0 p /\ ~ In 46 p /\ zlen enc <= 59 /\ Forall (fun b => 0 < b < 128 /\ b <> 46) enc.
Proof.
  intros U flags l p enc K S N0 N46 T. pose proof (norm_scalar _ _ _ _ K S (t_norm _ _ _ _ _ T)) as S'.
  pose proof (norm_sep _ _ _ _ 0 K (or_introl eq_refl) N0 (t_norm _ _ _ _ _ T)) as P0.
  pose proof (norm_sep _ _ _ _ 46 K (or_intror eq_refl) N46 (t_norm _ _ _ _ _ T)) as P46.
  destruct (enc_shape p enc S' P0 P46 (t_enc _ _ _ _ _ T)) as (A & B & _). auto.
Qed.
Lemma label_shape : forall U flags src d, nfc_ok U -> plain_label src -> label U src 63 flags = Ok d ->
  zlen d <= 63 /\ Forall (fun b => 0 < b < 128 /\ b <> 46) d.
Proof.
  intros U flags src d K P H. apply label_inv in H.
  assert (G : forall l p enc, Forall scalar l -> ~ In 0 l -> ~ In 46 l -> tail_ok U flags l p enc ->
    zlen (ace_prefix ++ enc) <= 63 /\ Forall (fun b => 0 < b < 128 /\ b <> 46) (ace_prefix ++ enc)).
  { intros l p enc S N0 N46 T. destruct (tail_shape U flags l p enc K S N0 N46 T) as (_ & _ & _ & L & F).
    rewrite zlen_app. change (zlen ace_prefix) with 4. split; [lia|]. apply Forall_app. split; auto. repeat constructor; lia. }
  destruct H as [A N L|t s' l p enc A R E D C T CC|l p enc A E T R].
  - split; [exact L|]. destruct P as (P1 & P2 & _). rewrite Forall_forall in *. intros b I. specialize (A b I). specialize (P1 b I).
    assert (b <> 46) by congruence. lia.
  - assert (LT : zlen t < two64). { destruct P as (_ & _ & P). rewrite E, zlen_app in P. change (zlen ace_prefix) with 4 in P. lia. }
    destruct (decoded_label t l s' D LT C) as (S & N0 & N46). eapply G; eauto.
  - destruct (u8_label src l P E) as (S & N0 & N46). eapply G; eauto.
Qed.

Lemma safe_bind : forall A B (m : out A) (f : A -> out B), safe m -> (forall a, m = Ok a -> safe (f a)) -> safe (bind m f).
Proof. intros A B [a|rc| |] f S H; cbn [bind]; auto. Qed.
Lemma conv_safe : forall A (o : option A) rc, safe (conv o rc).
Proof. intros A [a|] rc; exact I. Qed.
Lemma when_safe : forall b t, safe t -> safe (when b t).
Proof. intros [] t H; cbn [when]; auto. exact I. Qed.
Lemma label_tail_safe : forall U src org flags, nfc_ok U -> bytes src -> safe (label_tail U src org 63 flags).
Proof.
  intros U src org flags K B. unfold label_tail. apply safe_bind; [apply u8_nfc_safe|]. intros p Hp.
  apply u8_nfc_ok in Hp. destruct Hp as (l & Hl & Hn).
  assert (S : Forall scalar p). { apply u8_to_u32_iff in Hl; auto. apply utf8_scalar in Hl. exact (norm_scalar _ _ _ _ K Hl Hn). }
  apply safe_bind; [apply when_safe; apply label_test_safe; now apply scalar_nonneg|]. intros _ _.
  change (63 <? 4) with false. cbv iota. change (63 - 4) with 59.
  pose proof (encode_safe p 59 59 (scalar_u32 _ S) ltac:(unfold two64; lia) ltac:(lia)) as (SE & LE).
  apply safe_bind; [exact SE|]. intros enc He. destruct org as [o|].
  - destruct (casecmp_eq _ _); exact I.
  - destruct (negb _); [|exact I]. change LABEL_MAX with 63.
    pose proof (decode_safe enc 63 63 ltac:(lia) ltac:(lia) ltac:(specialize (LE enc He); unfold two64; lia)) as D.
    destruct (puny_decode enc 63 63); try exact I; try contradiction. destruct (list_eqb _ _); exact I.
Qed.
Lemma label_safe : forall U src flags, nfc_ok U -> bytes src -> zlen src < two64 -> safe (label U src 63 flags).
Proof.
  intros U src flags K B L. unfold label. destruct (ascii_p src); [|now apply label_tail_safe].
  destruct (_ && _) eqn:E.
  - assert (LT : zlen (skipn 4 src) < two64).
    { unfold zlen in *. rewrite skipn_length. lia. }
    apply safe_bind.
    + change LABEL_MAX with 63. pose proof (decode_safe (skipn 4 src) 63 63 ltac:(lia) ltac:(lia) LT) as D.
      destruct (puny_decode _ 63 63); try exact I; contradiction.
    + intros l32 _. destruct (u32_to_u8 l32) as [s'|] eqn:C; cbn [conv bind]; [|exact I]. apply label_tail_safe; auto. eapply u32_to_u8_bytes; eauto.
  - change LABEL_MAX with 63. destruct (63 <? zlen src); exact I.
Qed.

(** ** The loop over the labels *)
Definition size_ok (s : list Z) : Prop := zlen s <= 253 \/ (zlen s = 254 /\ exists t, s = t ++ [46]).
Lemma join_cons : forall x y r, join (x :: y :: r) = x ++ 46 :: join (y :: r).
Proof. reflexivity. Qed.

(** The loop succeeds exactly when every label does and the result fits. *)
Lemma lookup_labels_inv : forall U flags ls acc r, lookup_labels U flags ls acc = Ok r -> ls <> [] ->
  exists ds, Forall2 (fun l d => label U l 63 flags = Ok d) ls ds /\ r = acc ++ join ds /\
    (zlen r <= 253 \/ (zlen r = 254 /\ last ds [] = [])).
Proof.
  intros U flags ls. induction ls as [|l ls IH]; intros acc r H N; [congruence|]. cbn [lookup_labels] in H.
  apply bind_ok in H. destruct H as (d & Hd & H). change LABEL_MAX with 63 in Hd. change DOMAIN_MAX with 255 in H.
  destruct ls as [|l2 ls].
  - destruct (_ <? zlen acc + zlen d) eqn:E1; [discriminate|]. destruct (255 + 1 <? _); [discriminate|].
    destruct (255 <? zlen (acc ++ d)) eqn:E2; [discriminate|]. injection H as <-. exists [d]. split; [constructor; auto|]. split; [reflexivity|].
    apply Z.ltb_ge in E1. rewrite zlen_app. cbn [last]. rewrite andb_true_r in E1. destruct (zlen d =? 0) eqn:Z0.
    + apply Z.eqb_eq in Z0. assert (d = []) as -> by (destruct d; [reflexivity|rewrite zlen_cons in Z0; pose proof (zlen_nonneg _ d); lia]).
      rewrite zlen_nil in *. destruct (Z.eq_dec (zlen acc) 254); [right|left]; [split; [lia|reflexivity]|lia].
    + left. lia.
  - rewrite andb_false_r in H. destruct (_ <? zlen acc + zlen d) eqn:E1; [discriminate|]. destruct (255 + 1 <? _); [discriminate|].
    destruct (255 <? zlen (acc ++ d) + 1); [discriminate|]. destruct (255 <? zlen ((acc ++ d) ++ [46])); [discriminate|].
    apply IH in H; [|discriminate]. destruct H as (ds & F & -> & Z). exists (d :: ds). split; [constructor; auto|].
    inversion F; subst. split.
    + rewrite join_cons. rewrite <- !app_assoc. reflexivity.
    + destruct Z as [Z|Z]; auto.
Qed.
Lemma zlen_last_nonempty : forall (d : list Z), d <> [] -> 1 <= zlen d.
Proof. intros [|x d] H; [congruence|]. rewrite zlen_cons. pose proof (zlen_nonneg _ d). lia. Qed.
Lemma lookup_labels_intro : forall U flags ls ds acc, Forall2 (fun l d => label U l 63 flags = Ok d) ls ds -> ls <> [] ->
  (zlen (acc ++ join ds) <= 253 \/ (zlen (acc ++ join ds) = 254 /\ last ds [] = [])) ->
  lookup_labels U flags ls acc = Ok (acc ++ join ds).
Proof.
  intros U flags ls ds acc F. revert acc. induction F as [|l d ls ds Hd F IH]; intros acc N Z; [congruence|].
  cbn [lookup_labels]. change LABEL_MAX with 63. change DOMAIN_MAX with 255. rewrite Hd. cbn [bind]. destruct F as [|l2 d2 ls ds Hd2 F].
  - cbn [join last] in *. rewrite zlen_app in *. rewrite andb_true_r. destruct (zlen d =? 0) eqn:E0.
    + destruct (255 - 1 <? _) eqn:E1; [apply Z.ltb_lt in E1; lia|]. destruct (255 + 1 <? _) eqn:E2; [apply Z.ltb_lt in E2; lia|].
      destruct (255 <? _) eqn:E3; [apply Z.ltb_lt in E3; lia|]. reflexivity.
    + apply Z.eqb_neq in E0. destruct Z as [Z|(Z1 & ->)]; [|rewrite zlen_nil in E0; lia].
      destruct (255 - 2 <? _) eqn:E1; [apply Z.ltb_lt in E1; lia|]. destruct (255 + 1 <? _) eqn:E2; [apply Z.ltb_lt in E2; lia|].
      destruct (255 <? _) eqn:E3; [apply Z.ltb_lt in E3; lia|]. reflexivity.
  - rewrite join_cons in *. rewrite andb_false_r.
    assert (acc ++ d ++ 46 :: join (d2 :: ds) = ((acc ++ d) ++ [46]) ++ join (d2 :: ds)) as EE by (rewrite <- !app_assoc; reflexivity).
    rewrite EE in *. pose proof (zlen_nonneg _ (join (d2 :: ds))) as NN. rewrite zlen_app in Z. rewrite !zlen_app in Z. change (zlen [46]) with 1 in Z.
    destruct (255 - 2 <? _) eqn:E1; [apply Z.ltb_lt in E1; lia|]. destruct (255 + 1 <? _) eqn:E2; [apply Z.ltb_lt in E2; lia|].
    rewrite !zlen_app. change (zlen [46]) with 1.
    destruct (255 <? _) eqn:E3; [apply Z.ltb_lt in E3; lia|].
    apply IH; [discriminate|]. rewrite !zlen_app. change (zlen [46]) with 1. exact Z.
Qed.
Lemma lookup_labels_safe : forall U flags ls acc, nfc_ok U ->
  Forall (fun l => bytes l /\ zlen l < two64) ls -> safe (lookup_labels U flags ls acc).
Proof.
  intros U flags ls acc K F. revert acc. induction F as [|l ls (B & L) F IH]; intros acc; cbn [lookup_labels]; [exact I|].
  change LABEL_MAX with 63. change DOMAIN_MAX with 255. apply safe_bind; [now apply label_safe|]. intros d _.
  destruct (_ <? zlen acc + zlen d) eqn:E1; [exact I|]. apply Z.ltb_ge in E1.
  assert (zlen acc + zlen d <= 254) by (destruct (_ && _); lia).
  destruct (255 + 1 <? _) eqn:E2; [apply Z.ltb_lt in E2; lia|]. rewrite zlen_app. destruct ls as [|l2 ls].
  - destruct (255 <? _) eqn:E3; [apply Z.ltb_lt in E3; lia|exact I].
  - destruct (255 <? _) eqn:E3; [exact I|]. rewrite !zlen_app. change (zlen [46]) with 1. rewrite E3. apply IH.
Qed.
Lemma lookup_labels_ext : forall U f1 f2 ls acc, (forall l, In l ls -> label U l 63 f1 = label U l 63 f2) ->
  lookup_labels U f1 ls acc = lookup_labels U f2 ls acc.
Proof.
  intros U f1 f2 ls. induction ls as [|l ls IH]; intros acc H; [reflexivity|]. cbn [lookup_labels]. change LABEL_MAX with 63.
  rewrite H by now left. destruct (label U l 63 f2) as [d| | |]; try reflexivity. cbn [bind]. destruct (_ <? _); [reflexivity|].
  destruct (_ <? _); [reflexivity|]. destruct ls; [reflexivity|]. destruct (_ <? _); [reflexivity|]. destruct (_ <? _); [reflexivity|].
  apply IH. intros l' I. apply H. now right.
Qed.
Lemma last_join : forall ds, ds <> [] -> last ds [] = [] -> zlen (join ds) > 0 -> exists t, join ds = t ++ [46].
Proof.
  induction ds as [|x ds IH]; intros N L Z; [congruence|]. destruct ds as [|y ds].
  - cbn [last join] in *. subst. rewrite zlen_nil in Z. lia.
  - rewrite join_cons. destruct (Z.eq_dec (zlen (join (y :: ds))) 0) as [E|E].
    + assert (join (y :: ds) = []) as -> by (destruct (join (y :: ds)); [reflexivity|rewrite zlen_cons in E; pose proof (zlen_nonneg _ l); lia]).
      now exists x.
    + destruct IH as (t & ->); [discriminate|exact L|pose proof (zlen_nonneg _ (join (y :: ds))); lia|].
      exists (x ++ 46 :: t). now rewrite <- app_assoc.
Qed.
