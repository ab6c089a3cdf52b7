(** The lookup functions and ToASCII of UTS #46. *)
From Verif Require Import Base PunyBase PunyComplete PunyExact PunyInv PunyTop Puny Uenv DataTypes SpecUtf8 SpecPuny SpecTables SpecBidi SpecContext SpecLabel SpecNfc
  SpecLookup SpecToAscii SpecUts46 Utf8Proofs BidiProofs Bidi MapProofs LookupProofs LookupTop Lookup ToAsciiProofs Compose FlagRel.

(** ** Punycode spelt in another way *)
Lemma digit_canon : forall c d, rfc_digit c d -> rfc_digit (canon_char c) d /\ ldh_or_underscore c /\ c <> 45 /\ canon_char c = lower c.
Proof.
  intros c d H. unfold canon_char, lower, ldh_or_underscore. destruct H as [d H|d H|d H].
  - destruct ((65 <=? 97 + d) && (97 + d <=? 90)) eqn:E; zb; [lia|]. destruct (97 + d =? 95) eqn:E2; zb; [lia|].
    split; [now constructor|]. split; [lia|]. split; [lia|reflexivity].
  - destruct ((65 <=? 65 + d) && (65 + d <=? 90)) eqn:E; zb; [|lia]. replace (65 + d + 32) with (97 + d) by lia.
    split; [now constructor|]. split; [lia|]. split; [lia|reflexivity].
  - destruct ((65 <=? 48 + (d - 26)) && (48 + (d - 26) <=? 90)) eqn:E; zb; [lia|]. destruct (48 + (d - 26) =? 95) eqn:E2; zb; [lia|].
    split; [now constructor|]. split; [lia|]. split; [lia|reflexivity].
Qed.
Definition digits (s : list Z) : Prop := Forall (fun c => ldh_or_underscore c /\ c <> 45 /\ canon_char c = lower c) s.
Lemma varint_canon : forall bias k s v, rfc_varint bias k s v -> rfc_varint bias k (map canon_char s) v /\ digits s.
Proof.
  induction 1 as [k c d Hd Ht|k c d s v Hd Ht H (IH & I2)]; destruct (digit_canon _ _ Hd) as (D1 & D2); cbn [map].
  - split; [now apply rfc_vi_last|]. constructor; [exact D2|constructor].
  - split; [now apply rfc_vi_more|]. constructor; [exact D2|exact I2].
Qed.
Lemma steps_canon : forall o n i bias s L, rfc_steps o n i bias s L -> rfc_steps o n i bias (map canon_char s) L /\ digits s.
Proof.
  induction 1 as [o n i bias|o n i bias s rest q bias' a b L n' i' H1 H2 H3 H4 H5 H6 H7 (I1 & I2)]; [split; constructor|].
  destruct (varint_canon _ _ _ _ H1) as (V1 & V2). rewrite map_app. split; [econstructor; eauto|]. now apply Forall_app.
Qed.
Lemma digits_no45 : forall s, digits s -> ~ In 45 s.
Proof. intros s H X. unfold digits in H. rewrite Forall_forall in H. apply H in X. tauto. Qed.
Lemma digits_lower : forall s, digits s -> map canon_char s = map lower s.
Proof. intros s H. apply map_ext_in. intros c Hc. unfold digits in H. rewrite Forall_forall in H. apply H in Hc. tauto. Qed.

(** What RFC 3492 decodes to non-ASCII text with ordinary ASCII characters, the
    library's decoder decodes too. *)
Lemma rfc_canon : forall e p, rfc_decodes e p -> all_ascii e -> Forall (fun c => 0 <= c) e -> ascii_ldhu p -> rfc_decodes (canon e) p /\ Forall ldh_or_underscore e /\
  (Forall (fun c => ~ (65 <= c <= 90)) p -> canon e = map lower e).
Proof.
  intros e p H A0 NN A. assert (DL : forall s, digits s -> Forall ldh_or_underscore s) by (intros s; apply Forall_impl; tauto).
  destruct H as [s L N S|bs s L NE N S]; destruct (steps_canon _ _ _ _ _ _ S) as (S1 & S2).
  - rewrite canon_digits by exact N. split; [constructor; [now apply canon_no45|exact S1]|]. split; [now apply DL|]. intros _. now apply digits_lower.
  - rewrite canon_delim by exact N. split; [constructor; [exact NE|now apply canon_no45|exact S1]|].
    destruct (rfc_steps_grow _ _ _ _ _ _ S) as (_ & G). unfold all_ascii in A0. rewrite Forall_forall in A0.
    assert (B : forall c, In c bs -> ldh_or_underscore c). { intros c Hc. unfold ascii_ldhu in A. rewrite Forall_forall in A. apply A; auto. apply A0. apply in_or_app. now left. }
    split; [apply Forall_app; split; [now apply Forall_forall|constructor; [unfold ldh_or_underscore; lia|now apply DL]]|].
    intros Up. rewrite map_app. cbn [map]. rewrite digits_lower by exact S2. f_equal. rewrite <- (map_id bs) at 1. apply map_ext_in. intros c Hc.
    unfold lower. rewrite Forall_forall in Up. specialize (Up c (G c Hc)). destruct ((65 <=? c) && (c <=? 90)) eqn:E; zb; [lia|reflexivity].
Qed.
Lemma canon_no_underscore : forall e, canon e = map lower e -> forall a t, e = a ++ 95 :: t -> In 45 t.
Proof.
  induction e as [|c e IH]; intros E a t H; [destruct a; discriminate|]. cbn [canon map] in E. destruct (existsb (Z.eqb 45) (c :: e)) eqn:X; [injection E as _ E|].
  - destruct a as [|a0 a]; cbn [app] in H.
    + injection H as -> ->. apply existsb_exists in X. destruct X as (x & [<-|I] & Hx); zb; [lia|]. now subst.
    + injection H as _ H. exact (IH E a t H).
  - assert (I : In 95 (c :: e)) by (rewrite H; apply in_or_app; right; now left). change (map canon_char (c :: e) = map lower (c :: e)) in E.
    exfalso. revert I E. generalize (c :: e). clear. intros l I E. induction l as [|x l IH]; [destruct I|]. cbn [map] in E.
    pose proof (f_equal (hd 0) E) as E1. pose proof (f_equal (@tl Z) E) as E2. cbn [hd tl] in E1, E2.
    destruct I as [I|I]; [subst x; vm_compute in E1; discriminate E1|]. now apply IH.
Qed.

(** ** Labels *)
Lemma status_effective : forall std3 tr p, ok_status p tr (negb std3) -> (std3 = false -> Forall (fun c => status_of c <> Std3Mapped) p) ->
  Forall (fun c => effective std3 c = Valid \/ (tr = false /\ effective std3 c = Deviation)) p.
Proof.
  intros std3 tr p H N. unfold ok_status in H. rewrite Forall_forall in *. intros c Hc. specialize (H c Hc). unfold effective, is_std3 in *.
  destruct std3; cbn [negb] in H.
  - destruct (status_of c) eqn:E; intuition discriminate.
  - assert (M : status_of c <> Std3Mapped) by (exact (N eq_refl c Hc)). destruct (status_of c) eqn:E; intuition (discriminate || congruence).
Qed.
Lemma effective_status : forall std3 tr p, Forall (fun c => effective std3 c = Valid \/ (tr = false /\ effective std3 c = Deviation)) p -> ok_status p tr (negb std3).
Proof.
  intros std3 tr p H. unfold ok_status. eapply Forall_impl; [|exact H]. intros c Hc. cbv beta in Hc. unfold effective, is_std3 in *.
  destruct (status_of c) eqn:E, std3; cbn [negb]; intuition discriminate.
Qed.
Lemma ascii_joiners : forall U p, all_ascii p -> ok_contextj_rule U p.
Proof.
  intros U p A pre c post ->. unfold all_ascii in A. rewrite Forall_forall in A. assert (c < 128) by (apply A; apply in_or_app; right; now left).
  split; intros ->; lia.
Qed.
Lemma ascii_not_mapped : forall p, all_ascii p -> Forall (fun c => 0 <= c) p -> Forall (fun c => status_of c <> Std3Mapped) p.
Proof.
  intros p A N. unfold all_ascii in A. rewrite Forall_forall in *. intros c Hc. specialize (A c Hc). specialize (N c Hc). cbv beta in *.
  rewrite status_ascii by (cbn; lia). unfold ascii_status. repeat match goal with |- context [if ?b then _ else _] => destruct b end; discriminate.
Qed.
Lemma effective_upper : forall std3 tr p, Forall (fun c => effective std3 c = Valid \/ (tr = false /\ effective std3 c = Deviation)) p -> Forall (fun c => ~ (65 <= c <= 90)) p.
Proof.
  intros std3 tr p H. eapply Forall_impl; [|exact H]. intros c Hc X. cbv beta in Hc. unfold effective in Hc. rewrite status_ascii in Hc by (cbn; lia).
  unfold ascii_status in Hc. destruct ((65 <=? c) && (c <=? 90)) eqn:E; zb; [|lia]. intuition discriminate.
Qed.

Section P.
  Variable U : uenv.
  Variable K : nfc_ok U.
  Variable f : Z.

  Lemma label_sound : forall bidi dns s d, Forall scalar s -> ~ In 46 s -> zlen s < 1000000 -> opt_no_roundtrip f = false -> tr46_label U f s d ->
    (opt_std3 f = false -> forall e p, d = ace e -> rfc_decodes e p -> Forall (fun c => status_of c <> Std3Mapped) p) ->
    zlen d <= 63 /\ exists p, process_label U (lib_params f bidi dns) s p /\ encode_label p d.
  Proof.
    intros bidi dns s d S N46 LS RT H M.
    assert (VL : forall tr p, uts46_valid U tr (opt_std3 f) p -> ok_dot p -> (opt_std3 f = false -> Forall (fun c => status_of c <> Std3Mapped) p) ->
      (opt_transitional f = false -> ok_contextj_rule U p) -> valid_label U (lib_params f bidi dns) tr p).
    { intros tr p (V1 & V2 & V3 & V4 & V5) D NM J. constructor; cbn; auto; [now apply status_effective|]. intros X. apply J. now apply negb_true_iff in X. }
    assert (NN : Forall (fun c => 0 <= c) s) by (eapply Forall_impl; [|exact S]; unfold scalar; intros; lia).
    destruct H as [A X V L|e p E L D V _ CN I|e p E L D V R|e A X V I AL RE L].
    - split; [exact L|]. exists s. split; [|now constructor]. apply pl_plain; [exact X|]. apply VL; auto.
      + now apply nodot_ok.
      + intros _. now apply ascii_not_mapped.
      + intros _. now apply ascii_joiners.
    - assert (LE : zlen e < two64) by (unfold two64; lia). pose proof (proj2 (decodes_iff e p LE) D) as PD.
      assert (EN : rfc_encodes p (map lower e)).
      { rewrite <- CN. pose proof (decode_encode e 63 63 p 63 63 ltac:(lia) ltac:(lia) LE PD ltac:(lia) ltac:(unfold two64; lia) ltac:(lia)) as X.
        apply encode_iff in X; [tauto| |lia|lia]. destruct D as (_ & _ & D & _). eapply Forall_impl; [|exact D]. unfold permitted. intros; lia. }
      assert (RD : rfc_decodes e p). { apply (decode_rfc e 63 63 p); auto; try lia. now apply canon_no_underscore. }
      destruct (decoded_ldhu e p D LE) as (AU & NA).
      split. { rewrite zlen_ace. unfold zlen in *. rewrite map_length. lia. }
      exists p. split; [|now constructor]. apply (pl_ace U _ s e p); auto.
      + pose proof (encoded_ascii e p LE D) as AE. eapply Forall_impl; [|exact AE]. cbv beta. intros; lia.
      + apply (status_scalar p false (negb (opt_std3 f))); [destruct D; tauto|destruct V; tauto].
      + apply VL; auto; [now apply ldhu_dot| |intros T; apply (I T)].
        intros S3. apply (M S3 (map lower e) p eq_refl). destruct EN as (_ & EN). exact EN.
    - congruence.
    - split. { rewrite zlen_ace. lia. } exists s. split; [|now constructor]. apply pl_plain; [exact X|]. apply VL; auto.
      + now apply nodot_ok.
      + intros S3. apply (M S3 e s eq_refl). destruct RE as (_ & RE). exact RE.
      + intros T. apply (I T).
  Qed.

  Lemma label_complete : forall bidi dns s p d, Forall scalar s -> zlen s < 1000000 -> opt_no_roundtrip f = false -> opt_transitional f = false ->
    process_label U (lib_params f bidi dns) s p -> encode_label p d -> zlen d <= 63 -> idna2008_chars (opt_std3 f) p ->
    ok_bidi U p -> tr46_label U f s d.
  Proof.
    intros bidi dns s p d S LS RT TR H E LD IC B.
    assert (NN : Forall (fun c => 0 <= c) s) by (eapply Forall_impl; [|exact S]; unfold scalar; intros; lia).
    assert (VL : forall tr q, valid_label U (lib_params f bidi dns) tr q -> uts46_valid U tr (opt_std3 f) q).
    { intros tr q [V1 V2 V3 V4 V5 V6]. cbn in *. destruct (V2 eq_refl). unfold uts46_valid. repeat (split; [assumption|]). now apply effective_status. }
    assert (ID : forall tr, valid_label U (lib_params f bidi dns) tr p -> not_ascii p -> idna2008_valid U (negb (opt_std3 f)) p).
    { intros tr V NA. destruct (IC NA) as (I1 & I2 & _). destruct V as [V1 V2 V3 V4 V5 V6]. cbn in *. rewrite TR in V6. destruct (V2 eq_refl).
      unfold idna2008_valid. auto 10. }
    destruct H as [e p -> AE RD SP NA V|X V].
    - specialize (NA eq_refl). destruct (IC NA) as (_ & _ & AU). destruct E as [A|e' _ RE]; [apply not_ascii_iff in NA; contradiction|].
      assert (NE : Forall (fun c => 0 <= c) e) by (unfold ace in NN; do 4 apply Forall_inv_tail in NN; exact NN).
      rewrite zlen_ace in LD, LS. assert (LE : zlen e < two64) by (unfold two64; lia). assert (LE' : zlen e' < two64) by (unfold two64; lia).
      destruct (rfc_canon e p RD AE NE AU) as (C1 & C2 & C3).
      assert (PP : Forall permitted p) by (eapply Forall_impl; [|exact SP]; unfold scalar, permitted; intros; lia).
      assert (PE : puny_encode p 59 59 = Ok e') by (apply encodes_iff; auto; split; [exact RE|lia]).
      assert (PU : u32_list p) by (eapply Forall_impl; [|exact SP]; unfold scalar; intros; lia).
      assert (LP : zlen p <= 63).
      { apply encode_iff in PE; [|exact PU|lia|lia]. destruct PE as (_ & ((ds & LO & ->) & RD') & LE1).
        rewrite deli_eq in RD', LE1. apply rfc_parts in RD'; [|now apply lod_no45]. apply steps_len in RD'. rewrite !zlen_app in LE1.
        pose proof (zlen_nonneg _ (deli (ascii_part p))). lia. }
      assert (D : decodes_to e p) by (unfold decodes_to; auto).
      assert (D1 : puny_decode e 63 63 = Ok p) by (now apply decodes_iff).
      pose proof (decode_encode e 63 63 p 1000000 1000000 ltac:(lia) ltac:(lia) LE D1 ltac:(lia) ltac:(unfold two64; lia) ltac:(lia)) as X.
      assert (CN : canon e = map lower e). { apply C3. destruct V as [_ _ _ _ V5 _]. now apply effective_upper in V5. }
      assert (EE : e' = map lower e).
      { destruct (encode_decode p 59 59 e' 63 63 PU ltac:(unfold two64; lia) ltac:(lia) PE AU NA LP ltac:(lia)) as [D2|(Y & _)]; [|lia].
        pose proof (decode_injective e e' 63 63 63 63 p ltac:(lia) ltac:(lia) ltac:(lia) ltac:(lia) LE LE' D1 D2) as Q.
        rewrite <- CN, Q. clear - RE. destruct RE as ((ds & LO & ->) & _). rewrite deli_eq. destruct (ascii_part p) as [|x b] eqn:EP.
        - cbn [deli app]. rewrite canon_digits by (now apply lod_no45). now rewrite lod_canon.
        - cbn [deli]. change ([delimiter] ++ ds) with (45 :: ds). rewrite canon_delim by (now apply lod_no45). now rewrite lod_canon. }
      subst e'. assert (LL : zlen e <= 59) by (unfold zlen in *; rewrite map_length in LD; lia).
      apply (t46_alabel U f (ace e) e p); auto. intros _. now apply (ID false).
    - change (valid_label U (lib_params f bidi dns) (opt_transitional f) s) in V. rewrite TR in V. destruct E as [A|e NA RE].
      + apply t46_ascii; auto. rewrite TR. auto.
      + rewrite zlen_ace in LD. apply t46_ulabel; auto; try lia; [rewrite TR; auto|intros _; now apply (ID false)|intros _; now apply IC].
  Qed.

  (** ** Names *)
  Lemma has_rtl_dec : forall p, {has_rtl (ue_bidi U) p} + {~ has_rtl (ue_bidi U) p}.
  Proof. intros p. apply Exists_dec. intros c. unfold class_in. apply in_dec. decide equality. Qed.
  Lemma map_char_eq : forall bidi dns l, no_disallowed (lib_params f bidi dns) l ->
    flat_map (map_char (lib_params f bidi dns)) l = uts46_map (opt_transitional f) (opt_std3 f) l /\ ~ Exists (fun c => status_of c = Disallowed) l.
  Proof.
    intros bidi dns l H. unfold no_disallowed in H. change (use_std3 (lib_params f bidi dns)) with (opt_std3 f) in H. unfold uts46_map. split.
    - induction H as [|c l Hc H IH]; [reflexivity|]. cbn [flat_map]. rewrite IH. f_equal. unfold map_char, map1, effective, lib_params in *. cbn [use_std3 SpecUts46.transitional] in *.
      destruct (status_of c); try reflexivity; destruct (opt_std3 f); congruence.
    - intros X. apply Exists_exists in X. destruct X as (c & Hc & E). rewrite Forall_forall in H. apply (H c Hc). unfold effective. now rewrite E.
  Qed.
  Lemma no_disallowed_of : forall bidi dns l, ~ Exists (fun c => status_of c = Disallowed) l ->
    (opt_std3 f = true -> Forall (fun c => ~ is_std3 c) l) -> no_disallowed (lib_params f bidi dns) l.
  Proof.
    intros bidi dns l N S. unfold no_disallowed. change (use_std3 (lib_params f bidi dns)) with (opt_std3 f). apply Forall_forall. intros c Hc X. unfold effective in X.
    assert (D : status_of c <> Disallowed) by (intros Y; apply N; apply Exists_exists; eauto).
    destruct (opt_std3 f); [specialize (S eq_refl); rewrite Forall_forall in S; specialize (S c Hc); unfold is_std3 in S|];
      destruct (status_of c); (discriminate || intuition congruence).
  Qed.
  Lemma join_len : forall ls s, In s ls -> zlen s <= zlen (join ls).
  Proof.
    induction ls as [|x ls IH]; intros s H; [destruct H|]. destruct ls as [|y ls]; [destruct H as [<-|[]]; cbn [join]; lia|].
    rewrite join_cons, zlen_app, zlen_cons. pose proof (zlen_nonneg _ (join (y :: ls))). pose proof (zlen_nonneg _ x).
    destruct H as [<-|H]; [lia|]. specialize (IH s H). lia.
  Qed.
  Lemma label_of : forall l n ls s, Forall scalar l -> Forall (fun c => 0 < c) l -> zlen (uts46_map (opt_transitional f) (opt_std3 f) l) < 255 ->
    ue_nfc U (uts46_map (opt_transitional f) (opt_std3 f) l) = Some n -> dotted ls n -> In s ls -> Forall scalar s /\ ~ In 46 s /\ zlen s < 1000000.
  Proof.
    intros l n ls s SL PL L E (D1 & D2 & ->) I. destruct (uts46_map_ok (opt_transitional f) (opt_std3 f) l SL PL) as (MS & _).
    pose proof (nfc_scalar U K _ _ MS E) as SN. pose proof (nfc_length U K _ _ E) as LN. pose proof (join_len ls s I). rewrite Forall_forall in D2.
    split; [|split; [now apply D2|lia]]. rewrite Forall_forall in *. intros c Hc. apply SN. eapply join_in; eauto.
  Qed.
  Lemma fits_dns : forall ds r, dotted ds r -> name_fits ds r -> no_empty_label r -> Forall (fun d => zlen d <= 63) ds -> dns_lengths ds.
  Proof.
    intros ds r D F NE L. destruct (NE ds D) as (core & E & N & FC). exists core. split; [exact E|]. split; [exact N|]. split.
    - rewrite Forall_forall in *. intros d Hd. split.
      + specialize (FC d Hd). destruct d; [congruence|]. rewrite zlen_cons. pose proof (zlen_nonneg _ d). lia.
      + apply L. destruct E as [->| ->]; [exact Hd|apply in_or_app; now left].
    - destruct D as (_ & _ & ->). destruct E as [->| ->].
      + destruct F as [F|(_ & F)]; [exact F|]. exfalso. destruct (exists_last N) as (c & x & ->). rewrite last_app_ne in F by discriminate. cbn in F. subst x.
        rewrite Forall_app in FC. destruct FC as (_ & FC). apply Forall_inv in FC. congruence.
      + rewrite join_app in F by (auto; discriminate). unfold name_fits in F. rewrite zlen_app, zlen_cons in F. cbn [join] in F. change (zlen (@nil Z)) with 0 in F. lia.
  Qed.
  Lemma dns_fits : forall ds r, dotted ds r -> dns_lengths ds -> name_fits ds r /\ Forall (fun d => zlen d <= 63) ds.
  Proof.
    intros ds r (_ & _ & ->) (core & E & N & FC & L). destruct E as [->| ->].
    - split; [now left|]. eapply Forall_impl; [|exact FC]. cbv beta. lia.
    - split.
      + unfold name_fits. rewrite join_app by (auto; discriminate). rewrite zlen_app, zlen_cons. cbn [join]. change (zlen (@nil Z)) with 0.
        rewrite last_app_ne by discriminate. cbn [last]. assert (zlen (join core) <= 252 \/ zlen (join core) = 253) as [?|?] by lia; [left|right]; lia || (split; [lia|reflexivity]).
      + apply Forall_app. split; [eapply Forall_impl; [|exact FC]; cbv beta; lia|]. constructor; [|constructor]. change (zlen (@nil Z)) with 0. lia.
  Qed.

  Lemma uts46_sound : forall dns src l r, c_string src -> zlen src < two64 -> opt_no_tr46 f = false -> opt_no_roundtrip f = false -> utf8 l src ->
    (opt_std3 f = true -> Forall (fun c => ~ is_std3 c) l) ->
    (opt_std3 f = false -> no_a_label_with (fun c => status_of c = Std3Mapped) r) ->
    (dns = true -> no_empty_label r) ->
    lookup_u8 U src f = Ok r -> exists ps, uts46_to_ascii U (lib_params f false dns) l ps r.
  Proof.
    intros dns src l r C L NT NR UL S3 NA NE H. apply lookup_exact in H; auto. destruct H as (_ & H). rewrite NT in H.
    destruct H as (l' & n & ls & ds & U' & ND & LM & E & D & F & DR & NF). assert (l' = l) as -> by (now apply (utf8_code_fun _ _ src)).
    pose proof (no_disallowed_of false dns l ND S3) as NDP. destruct (map_char_eq false dns l NDP) as (ME & _).
    assert (PL : Forall (fun c => 0 < c) l) by (now apply (utf8_c_string l src)). pose proof (utf8_scalar _ _ UL) as SL.
    assert (X : exists ps, Forall2 (process_label U (lib_params f false dns)) ls ps /\ Forall2 encode_label ps ds /\ Forall (fun d => zlen d <= 63) ds).
    { assert (LB : forall s, In s ls -> Forall scalar s /\ ~ In 46 s /\ zlen s < 1000000) by (intros s; now apply (label_of l n ls s)).
      assert (MB : forall d, In d ds -> opt_std3 f = false -> forall e p, d = ace e -> rfc_decodes e p -> Forall (fun c => status_of c <> Std3Mapped) p).
      { intros d Hd S e p -> R. exact (NA S ds e p DR Hd R). }
      clear - K NR LB MB F. induction F as [|s d ls ds T F IH]; [exists []; repeat split; constructor|].
      destruct IH as (ps & I1 & I2 & I3); [intros; apply LB; now right|intros; eapply MB; eauto; now right|].
      destruct (LB s) as (B1 & B2 & B3); [now left|].
      destruct (label_sound false dns s d B1 B2 B3 NR T) as (Z & p & P1 & P2); [intros; eapply MB; eauto; now left|].
      exists (p :: ps). repeat split; constructor; auto. }
    destruct X as (ps & X1 & X2 & X3). exists ps, n, ls, ds. rewrite ME. repeat (split; [assumption|]). split; [intros Y; discriminate|].
    repeat (split; [assumption|]). cbn. intros DN. now apply (fits_dns ds r DR NF (NE DN)).
  Qed.

  Lemma uts46_complete : forall src l ps r, c_string src -> zlen src < two64 -> ~ bad_flags f -> opt_no_tr46 f = false -> opt_no_roundtrip f = false ->
    opt_transitional f = false -> utf8 l src ->
    uts46_to_ascii U (lib_params f true true) l ps r -> Forall (idna2008_chars (opt_std3 f)) ps ->
    zlen (flat_map (map_char (lib_params f true true)) l) < 255 ->
    lookup_u8 U src f = Ok r.
  Proof.
    intros src l ps r C L B NT NR TR UL (n & ls & ds & ND & E & D & F & BC & G & DR & DL) IC LM. apply lookup_exact; auto. split; [exact B|]. rewrite NT.
    destruct (map_char_eq true true l ND) as (ME & NDL). rewrite ME in E, LM. destruct (dns_fits ds r DR (DL eq_refl)) as (NF & L63).
    assert (PL : Forall (fun c => 0 < c) l) by (now apply (utf8_c_string l src)). pose proof (utf8_scalar _ _ UL) as SL.
    exists l, n, ls, ds. repeat (split; [assumption|]). split; [|split; assumption].
    assert (LB : forall s, In s ls -> Forall scalar s /\ ~ In 46 s /\ zlen s < 1000000) by (intros s; now apply (label_of l n ls s)).
    assert (OB : Forall (ok_bidi U) ps).
    { apply Forall_forall. intros p Hp. destruct (Exists_dec (has_rtl (ue_bidi U)) ps) as [X|X]; [apply has_rtl_dec| |].
      - specialize (BC eq_refl X). rewrite Forall_forall in BC. apply bidi_iff. apply bidi_complete. now apply BC.
      - left. intros Y. apply X. apply Exists_exists. eauto. }
    clear - K NR TR LB F G IC L63 OB. revert ds G L63. induction F as [|s p ls ps T F IH]; intros ds G L63; inversion G as [|? d ? ds' G1 G2]; subst; constructor.
    - destruct (LB s) as (B1 & B2 & B3); [now left|]. apply (label_complete true true s p d); auto; [now inversion L63|now inversion IC|now inversion OB].
    - apply IH; [now inversion IC|intros; apply LB; now right|now inversion OB|exact G2|now inversion L63].
  Qed.
End P.
