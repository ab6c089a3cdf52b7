(** What lookup and registration ask libunistring about. *)
From Coq Require Import String.
From Verif Require Import Base PunyBase Uenv DataTypes Tables SpecUtf8 SpecPuny SpecTables SpecBidi SpecContext SpecLabel SpecNfc
  SpecLookup SpecToAscii SpecRegister Puny PunyExact LookupProofs Utf8 Utf8Proofs Bidi Context Idna Lookup LabelProofs MapProofs LookupTr46 LookupIdem LookupTop ToAsciiProofs
  Api Register RegisterProofs RefusalLabel RegRefusal StableProofs SpecAgree.

Section Agree.
  Variables (A : Z -> Prop) (U V : uenv).
  Hypothesis G : agree A U V.

  Lemma rd_in : forall l i c, rd l i = Ok c -> In c l.
  Proof. intros l i c H. unfold rd in H. destruct (i <? 0); [discriminate|]. destruct (nth_error l (Z.to_nat i)) eqn:E; [|discriminate]. injection H as ->. now apply nth_error_In in E. Qed.
  Lemma rd_A : forall l i c, Forall A l -> rd l i = Ok c -> A c.
  Proof. intros l i c F H. rewrite Forall_forall in F. apply F. eapply rd_in; eauto. Qed.
  Lemma bind_same : forall X Y (m : out X) (f g : X -> out Y), (forall x, m = Ok x -> f x = g x) -> bind m f = bind m g.
  Proof. intros X Y m f g H. destruct m; cbn [bind]; auto. Qed.
  Lemma skipn_A : forall n l, Forall A l -> Forall A (skipn n l).
  Proof. induction n as [|n IH]; intros l F; [exact F|]. destruct l; [constructor|]. inversion F; subst. now apply IH. Qed.

  Lemma is_bidi_same : forall l, Forall A l -> is_bidi U l = is_bidi V l.
  Proof. induction 1 as [|c l Hc Hl IH]; [reflexivity|]. cbn [is_bidi]. rewrite (ag_bidi _ _ _ G c Hc), IH. reflexivity. Qed.
  Lemma ltr_same : forall l, Forall A l -> forall b, bidi_ltr U l b = bidi_ltr V l b.
  Proof. induction 1 as [|c l Hc Hl IH]; intros b; [reflexivity|]. cbn [bidi_ltr]. rewrite (ag_bidi _ _ _ G c Hc), !IH. reflexivity. Qed.
  Lemma rtl_same : forall l, Forall A l -> forall b, bidi_rtl U l b = bidi_rtl V l b.
  Proof. induction 1 as [|c l Hc Hl IH]; intros b; [reflexivity|]. cbn [bidi_rtl]. rewrite (ag_bidi _ _ _ G c Hc), !IH. reflexivity. Qed.
  Lemma bidi_same : forall l, Forall A l -> bidi U l = bidi V l.
  Proof.
    intros l F. unfold bidi. rewrite is_bidi_same by auto. destruct l as [|c l]; [reflexivity|]. inversion F; subst.
    rewrite (ag_bidi _ _ _ G c), ltr_same, rtl_same by auto. reflexivity.
  Qed.
  Lemma back_same : forall l n, Forall A l -> zwnj_back U l n = zwnj_back V l n.
  Proof.
    intros l n F. induction n as [|n IH]; cbn [zwnj_back]; apply bind_same; intros c H; apply (rd_A _ _ _ F) in H; rewrite (ag_join _ _ _ G c H); [reflexivity|]. now rewrite IH.
  Qed.
  Lemma fwd_same : forall l, Forall A l -> zwnj_fwd U l = zwnj_fwd V l.
  Proof. induction 1 as [|c l Hc Hl IH]; [reflexivity|]. cbn [zwnj_fwd]. rewrite (ag_join _ _ _ G c Hc), IH. reflexivity. Qed.
  Lemma virama_same : forall l i, Forall A l -> virama_before U l i = virama_before V l i.
  Proof. intros l i F. unfold virama_before. destruct (0 <? i); [|reflexivity]. apply bind_same. intros c H. apply (rd_A _ _ _ F) in H. now rewrite (ag_ccc _ _ _ G c H). Qed.
  Lemma contextj_same : forall l i, Forall A l -> contextj_rule U l i = contextj_rule V l i.
  Proof. intros l i F. unfold contextj_rule. rewrite !virama_same, !back_same, !fwd_same by auto using skipn_A. reflexivity. Qed.
  Lemma existsb_same : forall (f g : Z -> bool) l, (forall c, In c l -> f c = g c) -> existsb f l = existsb g l.
  Proof. induction l as [|c l IH]; intros H; [reflexivity|]. cbn [existsb]. rewrite H by now left. rewrite IH; [reflexivity|]. intros d I. apply H. now right. Qed.
  Lemma script_same : forall c, A c -> script_name U c = script_name V c.
  Proof. intros c H. unfold script_name. now rewrite (ag_script _ _ _ G c H). Qed.
  Lemma contexto_same : forall l i, Forall A l -> contexto_rule U l i = contexto_rule V l i.
  Proof.
    intros l i F. unfold contexto_rule. apply bind_same. intros c _. apply bind_same. intros o _.
    assert (forall n, bind (rd l n) (fun a => if String.eqb (script_name U a) "Greek"%string then Ok tt else Fail IDN2_CONTEXTO) = bind (rd l n) (fun a => if String.eqb (script_name V a) "Greek"%string then Ok tt else Fail IDN2_CONTEXTO)) as ->.
    { intros n. apply bind_same. intros a H. now rewrite (script_same a (rd_A _ _ _ F H)). }
    assert (forall n, bind (rd l n) (fun a => if String.eqb (script_name U a) "Hebrew"%string then Ok tt else Fail IDN2_CONTEXTO) = bind (rd l n) (fun a => if String.eqb (script_name V a) "Hebrew"%string then Ok tt else Fail IDN2_CONTEXTO)) as ->.
    { intros n. apply bind_same. intros a H. now rewrite (script_same a (rd_A _ _ _ F H)). }
    rewrite (existsb_same (fun c => String.eqb (script_name U c) "Hiragana"%string || String.eqb (script_name U c) "Katakana"%string || String.eqb (script_name U c) "Han"%string)
      (fun c => String.eqb (script_name V c) "Hiragana"%string || String.eqb (script_name V c) "Katakana"%string || String.eqb (script_name V c) "Han"%string)); [reflexivity|].
    intros a I. rewrite Forall_forall in F. now rewrite (script_same a (F a I)).
  Qed.
  Lemma each_pos_same : forall (f g : Z -> out unit), (forall i, f i = g i) -> forall n i, each_pos f n i = each_pos g n i.
  Proof. intros f g H. induction n as [|n IH]; intros i; [reflexivity|]. cbn [each_pos]. rewrite H. apply bind_same. auto. Qed.
  Lemma leading_same : forall l, Forall A l -> test_leading_combining U l = test_leading_combining V l.
  Proof. intros l F. destruct F as [|c l H F]; [reflexivity|]. unfold test_leading_combining. now rewrite (ag_mark _ _ _ G c H). Qed.
  Lemma label_test_same : forall what l, Forall A l -> label_test U what l = label_test V what l.
  Proof.
    intros what l F. unfold label_test, test_nfc. rewrite (ag_nfc _ _ _ G l F), leading_same, bidi_same by auto.
    rewrite (each_pos_same (contextj_rule U l) (contextj_rule V l)) by (intros; now apply contextj_same).
    rewrite (each_pos_same (contexto_rule U l) (contexto_rule V l)) by (intros; now apply contexto_same). reflexivity.
  Qed.
  Lemma qc_same : forall l, Forall A l -> forall b last r, isNFC_loop U l b last r = isNFC_loop V l b last r.
  Proof.
    induction 1 as [|c l Hc Hl IH]; intros b last r; [reflexivity|]. cbn [isNFC_loop]. rewrite (ag_ccc _ _ _ G c Hc), IH. destruct b; [reflexivity|].
    destruct ((ue_ccc V c <? last) && negb (ue_ccc V c =? 0)); [reflexivity|]. apply bind_same. intros m _. destruct m as [q|]; [|apply IH]. now rewrite IH.
  Qed.
  Lemma conv_same : forall s b, (forall l, u8_to_u32 s = Some l -> Forall A l) ->
    u8_to_u32_nfc U s b = u8_to_u32_nfc V s b /\ forall p, u8_to_u32_nfc U s b = Ok p -> Forall A p.
  Proof.
    intros s b H. unfold u8_to_u32_nfc. destruct (u8_to_u32 s) as [l|]; cbn [conv bind]; [|split; [reflexivity|discriminate]].
    specialize (H l eq_refl). destruct b; [|split; [reflexivity|]; intros p E; now injection E as <-].
    unfold isNFC. rewrite qc_same by auto. rewrite (ag_nfc _ _ _ G l H). split; [reflexivity|]. intros p E. apply bind_ok in E. destruct E as (k & _ & E).
    destruct (k =? 0); [|now injection E as <-]. destruct (ue_nfc V l) as [q|] eqn:N; [|discriminate]. cbn [conv] in E. injection E as ->.
    apply (ag_closed _ _ _ G l); [exact H|]. now rewrite (ag_nfc _ _ _ G l H).
  Qed.
  Lemma tail_same : forall s org n g, (forall l, u8_to_u32 s = Some l -> Forall A l) -> label_tail U s org n g = label_tail V s org n g.
  Proof.
    intros s org n g H. unfold label_tail. destruct (conv_same s (has g IDN2_NFC_INPUT) H) as (E & P). rewrite <- E. apply bind_same. intros p Hp.
    now rewrite (label_test_same _ p (P p Hp)).
  Qed.
  Lemma label_agree : forall b n g, zlen b < two64 -> (forall l, u8_to_u32 b = Some l -> Forall A l) -> (has g IDN2_NO_ALABEL_ROUNDTRIP = false -> forall e p, b = ace e -> decodes_to e p -> Forall A p) ->
    label U b n g = label V b n g.
  Proof.
    intros b n g Z H D. unfold label. rewrite (tail_same b None n g H). destruct (ascii_p b); [|reflexivity].
    destruct (negb (has g IDN2_NO_ALABEL_ROUNDTRIP) && has_ace_prefix b) eqn:E; [|reflexivity]. apply andb_true_iff in E. destruct E as (RT & E). apply negb_true_iff in RT.
    apply has_ace_iff in E. destruct E as (e & ->). apply bind_same. intros p Hp. change (skipn 4 (120 :: 110 :: 45 :: 45 :: e)) with e in Hp. change LABEL_MAX with 63 in Hp.
    apply decodes_iff in Hp; [|rewrite !zlen_cons in Z; lia]. specialize (D RT e p eq_refl Hp). apply bind_same. intros s Hs. apply tail_same. intros l Hl.
    destruct (u32_to_u8 p) as [s'|] eqn:E; [|discriminate]. cbn [conv] in Hs. injection Hs as ->. apply u32_to_u8_iff in E.
    apply u8_to_u32_iff in E; [congruence|]. apply u32_to_u8_iff in E. now apply u32_to_u8_bytes in E.
  Qed.
  Lemma labels_agree : forall g ls, Forall (fun b => label U b LABEL_MAX g = label V b LABEL_MAX g) ls -> forall acc, lookup_labels U g ls acc = lookup_labels V g ls acc.
  Proof.
    intros g ls F. induction F as [|b ls H F IH]; intros acc; [reflexivity|]. cbn [lookup_labels]. rewrite H. apply bind_same. intros t _. now rewrite IH.
  Qed.
  Lemma check1_same : forall g s, Forall A s -> zlen s < 1020 -> (forall e p, s = ace e -> decodes_to e p -> Forall A p) -> tr46_check1 U g s = tr46_check1 V g s.
  Proof.
    intros g s F Z D. unfold tr46_check1. cbv zeta. rewrite (label_test_same _ s F). destruct (has_ace_prefix s) eqn:E; [|reflexivity]. apply has_ace_iff in E. destruct E as (e & ->).
    apply bind_same. intros a Ha. apply bind_same. intros p Hp. change (skipn 4 (120 :: 110 :: 45 :: 45 :: e)) with e in Ha. change LABEL_MAX with 63 in Hp.
    destruct (u32_to_u8 e) as [a'|] eqn:E; [|discriminate]. cbn [conv] in Ha. injection Ha as ->. apply u32_to_u8_iff in E. destruct (utf8_len _ _ E) as (_ & Y).
    apply decodes_iff in Hp; [|rewrite !zlen_cons in Z; unfold two64; lia]. f_equal. apply label_test_same. apply (D e p); [reflexivity|].
    rewrite (utf8_ascii_eq _ _ E); [exact Hp|]. destruct Hp as (Hp & _). eapply Forall_impl; [|exact Hp]. unfold ldh_or_underscore. intros c. cbv beta. lia.
  Qed.
  Lemma checks_same : forall g ls, Forall (fun s => tr46_check1 U g s = tr46_check1 V g s) ls -> forall err, tr46_checks U g ls err = tr46_checks V g ls err.
  Proof.
    intros g ls F. induction F as [|b ls H F IH]; intros err; [reflexivity|]. cbn [tr46_checks]. rewrite H.
    assert (bind (tr46_check1 V g b) (fun t => match t with Ok _ => tr46_checks U g ls err | Fail rc => tr46_checks U g ls rc | Undef => Undef | NoFuel => NoFuel end) =
      bind (tr46_check1 V g b) (fun t => match t with Ok _ => tr46_checks V g ls err | Fail rc => tr46_checks V g ls rc | Undef => Undef | NoFuel => NoFuel end)) as ->
      by (apply bind_same; intros t _; destruct t; auto).
    reflexivity.
  Qed.
  Lemma split_A : forall l, Forall A l -> Forall (Forall A) (split_dots l). Proof. intros l. apply split_Forall. Qed.

  Lemma lookup_agree : forall src l f, nfc_ok U -> nfc_ok V -> c_string src -> zlen src < two64 -> utf8 l src -> only A U f l -> lookup_u8 U src f = lookup_u8 V src f.
  Proof.
    intros src l f KU KV C Z S (M & D). destruct (set_flags_spec f) as [(_ & E)|(_ & E)]; unfold lookup_u8; rewrite E; clear E; cbn [bind]; [reflexivity|]. rewrite has_no_tr46, eff_no_tr46.
    unfold final_name, mapped_name in *. destruct (opt_no_tr46 f) eqn:T; cbn [negb].
    - cbn [bind]. apply labels_agree. pose proof (plain_split src C Z) as P. pose proof (utf8_split _ _ S) as X. pose proof (split_A l M) as FA.
      specialize (D l (split_dots l)). apply Forall_forall. intros b I. change LABEL_MAX with 63. rewrite Forall_forall in P. destruct (P b I) as (B & _ & ZB).
      assert (Y : exists x, In x (split_dots l) /\ utf8 x b).
      { clear - X I. revert I. induction X as [|x y xs ys H X IH]; intros I; [destruct I|]. destruct I as [->|I]; [exists x; split; [now left|auto]|]. destruct (IH I) as (z & J & K). exists z. split; [now right|auto]. }
      destruct Y as (x & Ix & Ux). apply label_agree; [exact ZB| |].
      + intros l0 H0. apply u8_to_u32_iff in Ux; [|now apply c_string_bytes]. assert (l0 = x) as -> by congruence. rewrite Forall_forall in FA. now apply FA.
      + rewrite has_no_roundtrip, eff_no_roundtrip. intros RT e p -> Dp. apply (D e p); [intros _; exact RT|reflexivity|now apply dotted_iff| |exact Dp].
        enough (Q : x = ace e) by (rewrite Q in Ix; exact Ix). apply utf8_ascii_eq; [exact Ux|]. apply ace_ascii. destruct Dp as (Dp & _). eapply Forall_impl; [|exact Dp]. unfold ldh_or_underscore. intros c. cbv beta. lia.
    - rewrite !tr46_eq by auto. unfold tr46_spec. pose proof S as S'. apply u8_to_u32_iff in S'; [|now apply c_string_bytes]. rewrite S'.
      destruct (existsb disallowedb l); [cbn [bind]; reflexivity|]. rewrite eff_transitional, eff_std3. cbv zeta. set (m := uts46_map (opt_transitional f) (opt_std3 f) l) in *.
      destruct (255 <=? zlen m) eqn:ZL; [cbn [bind]; reflexivity|]. apply Z.leb_gt in ZL. rewrite <- (ag_nfc _ _ _ G m M). destruct (ue_nfc U m) as [n|] eqn:N; [|cbn [bind]; reflexivity].
      pose proof (ag_closed _ _ _ G m n M N) as FN. pose proof (nfc_length _ KU _ _ N) as ZN. specialize (D n (split_dots n)).
      assert (DN : forall e p, In (ace e) (split_dots n) -> decodes_to e p -> Forall A p) by (intros e p I; apply D; [unfold decoding; congruence|reflexivity|now apply dotted_iff|exact I]).
      assert (CS : Forall (fun s => tr46_check1 U (eff f) s = tr46_check1 V (eff f) s) (split_dots n)).
      { apply Forall_forall. intros s I. apply check1_same.
        - pose proof (split_A n FN) as FA. rewrite Forall_forall in FA. now apply FA.
        - apply split_zlen in I. lia.
        - intros e p -> . now apply DN. }
      rewrite (checks_same _ _ CS). apply bind_same. intros o O. apply bind_ok in O. destruct O as (err & _ & O). destruct (negb (err =? IDN2_OK)); [discriminate O|].
      destruct (u32_to_u8 n) as [o'|] eqn:E; [|discriminate O]. cbn [conv] in O. injection O as ->. rename E into O. apply u32_to_u8_iff in O.
      apply labels_agree. pose proof (utf8_split _ _ O) as X. pose proof (split_A n FN) as FA. apply Forall_forall. intros b I.
      assert (Y : exists x, In x (split_dots n) /\ utf8 x b).
      { clear - X I. revert I. induction X as [|x y xs ys H X IH]; intros I; [destruct I|]. destruct I as [->|I]; [exists x; split; [now left|auto]|]. destruct (IH I) as (z & J & K). exists z. split; [now right|auto]. }
      destruct Y as (x & Ix & Ux). destruct (utf8_len _ _ Ux) as (_ & ZB). pose proof (split_zlen _ _ Ix) as ZX. apply label_agree; [unfold two64; lia| |].
      + intros l0 H0. pose proof Ux as Ux'. apply u8_to_u32_iff in Ux'; [|apply u32_to_u8_iff in Ux; now apply u32_to_u8_bytes in Ux]. assert (l0 = x) as -> by congruence. rewrite Forall_forall in FA. now apply FA.
      + intros _ e p -> Dp. apply (DN e p); [|exact Dp].
        enough (Q : x = ace e) by (rewrite Q in Ix; exact Ix). apply utf8_ascii_eq; [exact Ux|]. apply ace_ascii. destruct Dp as (Dp & _). eapply Forall_impl; [|exact Dp]. unfold ldh_or_underscore. intros c. cbv beta. lia.
  Qed.

  Lemma reg_ulabel_agree : forall s f, (forall l, u8_to_u32 s = Some l -> Forall A l) -> reg_ulabel U s f = reg_ulabel V s f.
  Proof.
    intros s f H. unfold reg_ulabel. destruct (conv_same s (has f IDN2_NFC_INPUT) H) as (E & P). rewrite <- E.
    destruct (ascii_p s); [reflexivity|]. apply bind_same. intros p Hp. now rewrite (label_test_same _ p (P p Hp)).
  Qed.
  Lemma rest_same : forall p, Forall A p -> rest U p = rest V p.
  Proof. intros p F. unfold rest. now rewrite (label_test_same _ p F). Qed.
  Lemma register_agree : forall u a o f, nfc_ok U -> nfc_ok V -> (forall s, u = Some s -> c_string s) -> (forall s, a = Some s -> c_string s) ->
    only_registered A u a -> register_u8 U u a o f = register_u8 V u a o f.
  Proof.
    intros u a o f KU KV CU CA (H1 & H2). unfold register_u8. destruct a as [a|].
    - f_equal. specialize (CA a eq_refl). clear H1. destruct (Z.lt_ge_cases 63 (zlen a)) as [L|L].
      { unfold reg_alabel. change LABEL_MAX with 63. destruct (63 <? zlen a) eqn:X; [reflexivity|]. apply Z.ltb_ge in X. lia. }
      destruct (shape_inv U a L) as [(e & -> & SE)|(NX & E)].
      + rewrite (reg_alabel_shape U), (reg_alabel_shape V) by auto. apply bind_same. intros p Hp. destruct SE as (_ & _ & SE). rewrite zlen_ace in SE.
        apply decodes252 in Hp; [|lia]. specialize (H2 e p eq_refl Hp). destruct (u32_to_u8 p); [|reflexivity]. unfold after. rewrite (rest_same p H2). reflexivity.
      + rewrite E. destruct (shape_inv V a L) as [(e & -> & SE)|(_ & E')]; [exact (match NX e eq_refl SE with end)|now rewrite E'].
    - destruct u as [s|]; [|reflexivity]. f_equal. apply reg_ulabel_agree. intros l E. apply (H1 s l eq_refl eq_refl). apply u8_to_u32_iff; [|exact E]. apply c_string_bytes. now apply CU.
  Qed.
End Agree.
