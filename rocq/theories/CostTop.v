(** Bounds for lookup, ToUnicode and registration. *)
From Coq Require Import String.
From Verif Require Import Base Uenv DataTypes SpecTables SpecNfc Bsearch Tables Gentr46 Tr46Tables Tr46Map Utf8 SpecUtf8 Utf8Proofs Bidi Context Idna Puny PunyBase Lookup Api Register Ucd UcdProofs.
From Verif Require Import Cost CostPuny CostLabel.
Local Open Scope Z_scope.

(** The number of elements in all labels. *)
Definition total (ls : list (list Z)) : Z := fold_right (fun l t => zlen l + t) 0 ls.
Lemma split_total : forall s, total (split_dots s) + zlen (split_dots s) = zlen s + 1.
Proof.
  induction s as [|c s IH]; [reflexivity|]. cbn [split_dots]. rewrite zlen_cons. destruct (c =? 46).
  - cbn [total fold_right]. fold (total (split_dots s)). rewrite !zlen_cons, zlen_nil. lia.
  - pose proof (zlen_nonneg _ s). destruct (split_dots s) as [|x xs]; cbn [total fold_right] in *; rewrite ?zlen_nil, ?zlen_cons, ?zlen_nil in *; lia.
Qed.
Lemma until0_len : forall l s, until0 l = Some s -> zlen s <= zlen l.
Proof.
  induction l as [|c l IH]; intros s H; cbn [until0] in H; [discriminate|]. rewrite zlen_cons. pose proof (zlen_nonneg _ l). destruct (c =? 0); [injection H as <-; rewrite zlen_nil; lia|].
  destruct (until0 l); [|discriminate]. injection H as <-. rewrite zlen_cons. specialize (IH _ eq_refl). lia.
Qed.
Lemma upto0_len : forall l, zlen (upto0 l) <= zlen l.
Proof. induction l as [|c l IH]; cbn [upto0]; [lia|]. rewrite zlen_cons. pose proof (zlen_nonneg _ l). destruct (c =? 0); rewrite ?zlen_nil, ?zlen_cons; lia. Qed.
Lemma list_eqb_le2 : forall a b, T_list_eqb a b <= zlen b.
Proof. induction a as [|x a IH]; intros b; cbn [T_list_eqb]; [apply zlen_nonneg|]. destruct b as [|y b]; [rewrite zlen_nil; lia|]. rewrite zlen_cons. specialize (IH b). pose proof (zlen_nonneg _ b). destruct (x =? y); lia. Qed.
Lemma ascii_le : forall s, T_ascii_p s <= zlen s.
Proof. intros s. unfold T_ascii_p, T_forallb. apply existsb_le. Qed.

Section Top.
  Variable U : uenv.
  Hypothesis zwnj_not_T : ue_join U 0x200C <> UC_JOINING_TYPE_T.
  Hypothesis fourfold : at_most_fourfold U.

  Lemma tests_no_contexto : forall flags, has (label_tests flags) TEST_CONTEXTO_RULE = false.
  Proof. intros flags. unfold label_tests. destruct (has flags IDN2_NONTRANSITIONAL), (has flags IDN2_USE_STD3_ASCII_RULES); reflexivity. Qed.
  Lemma label_tail_le : forall src org flags, T_label_tail U src org LABEL_MAX flags <= 941 * zlen src + 5100.
  Proof.
    intros src org flags. unfold T_label_tail. set (m := zlen src). assert (M : 0 <= m) by apply zlen_nonneg.
    pose proof (u8_to_u32_nfc_le U src (has flags IDN2_NFC_INPUT)) as A. fold m in A.
    match goal with |- _ + ?k <= _ => assert (k <= 932 * m + 5100); [|lia] end.
    apply after_le; [lia|]. intros p E. apply u8_to_u32_nfc_len in E; [|exact fourfold]. fold m in E. pose proof (zlen_nonneg _ p).
    assert (T_when (negb (has flags IDN2_TRANSITIONAL)) (T_label_test U (label_tests flags) p) <= 444 * m).
    { apply when_le; [lia|]. pose proof (label_test_le U (label_tests flags) p zwnj_not_T (tests_no_contexto flags)). lia. }
    match goal with |- _ + ?k <= _ => assert (k <= 488 * m + 5100); [|lia] end.
    apply after_le; [lia|]. intros _ _. change (LABEL_MAX <? 4) with false. cbv iota. change (LABEL_MAX - 4) with 59.
    pose proof (encode_le p 59 59 ltac:(lia)) as C.
    match goal with |- _ + ?k <= _ => assert (k <= 4 * m + 4594); [|nia] end.
    apply after_le; [lia|]. intros enc Ee. apply encode_len in Ee; [|lia]. pose proof (zlen_nonneg _ enc).
    destruct org as [org|].
    - pose proof (casecmp_le org (ace_prefix ++ enc)) as Q. rewrite zlen_app in Q. change (zlen ace_prefix) with 4 in Q. lia.
    - destruct (negb (has flags IDN2_NO_ALABEL_ROUNDTRIP)); [|lia]. pose proof (decode_le enc LABEL_MAX LABEL_MAX ltac:(unfold LABEL_MAX; lia)) as D. change ((LABEL_MAX + 1) * (LABEL_MAX + 6)) with 4416 in D.
      match goal with |- _ + ?k <= _ => assert (k <= 4 * m); [|lia] end. apply after_le; [lia|]. intros l32 _. pose proof (list_eqb_le p l32). lia.
  Qed.
  Lemma label_le : forall src flags, T_label U src LABEL_MAX flags <= 3769 * zlen src + 9600.
  Proof.
    intros src flags. unfold T_label. set (m := zlen src). assert (M : 0 <= m) by apply zlen_nonneg. pose proof (ascii_le src) as A. fold m in A.
    match goal with |- _ + ?k <= _ => assert (k <= 3768 * m + 9600); [|lia] end.
    destruct (ascii_p src); [|pose proof (label_tail_le src None flags) as T; fold m in T; lia].
    destruct (_ && _).
    - pose proof (decode_le (skipn 4 src) LABEL_MAX LABEL_MAX ltac:(unfold LABEL_MAX; lia)) as D. pose proof (zlen_skipn_le _ 4 src) as S. fold m in S.
      change ((LABEL_MAX + 1) * (LABEL_MAX + 6)) with 4416 in D.
      match goal with |- _ + ?k <= _ => assert (k <= 3765 * m + 5100); [|lia] end.
      apply after_le; [lia|]. intros l32 E. apply decode_len in E. pose proof (zlen_nonneg _ l32).
      match goal with |- _ + ?k <= _ => assert (k <= 3764 * m + 5100); [|lia] end.
      apply after_le; [lia|]. intros s' E'. apply conv_ok in E'. apply u32_to_u8_len in E'. pose proof (label_tail_le s' (Some src) flags). lia.
    - destruct (_ <? _); lia.
  Qed.
  Lemma lookup_labels_le : forall flags ls acc, zlen acc <= 255 -> T_lookup_labels U flags ls acc <= 3770 * total ls + (256 - zlen acc) * 9900.
  Proof.
    intros flags. induction ls as [|l rest IH]; intros acc H; cbn [T_lookup_labels total fold_right]; [lia|]. fold (total rest).
    assert (R0 : 0 <= total rest) by (clear; induction rest as [|x r I]; cbn [total fold_right] in *; [lia|pose proof (zlen_nonneg _ x); unfold total in *; lia]).
    cbv zeta. pose proof (label_le l flags) as L. unfold T_scan. pose proof (zlen_nonneg _ l).
    match goal with |- _ + ?k <= _ => assert (k <= 3770 * total rest + 255 + (255 - zlen acc) * 9900); [|lia] end.
    apply after_le; [lia|]. intros tmp _. pose proof (zlen_nonneg _ tmp). pose proof (zlen_nonneg _ acc). unfold DOMAIN_MAX.
    destruct (255 - _ <? _) eqn:E; [lia|]. apply Z.ltb_ge in E. destruct (_ <? _); [lia|].
    assert (zlen tmp <= 255) by (destruct (_ && _); lia).
    destruct rest as [|x rest]; [lia|]. destruct (_ <? _) eqn:E2; [lia|]. apply Z.ltb_ge in E2. destruct (_ <? zlen _) eqn:E3; [lia|]. apply Z.ltb_ge in E3.
    specialize (IH ((acc ++ tmp) ++ [46]) E3). rewrite !zlen_app, zlen_cons, zlen_nil in IH. rewrite zlen_app in E2. lia.
  Qed.

  Lemma tr46_len_T : forall flags l, T_tr46_len flags l <= 14 * zlen l.
  Proof.
    intros flags. induction l as [|c r IH]; cbn [T_tr46_len]; rewrite ?zlen_nil, ?zlen_cons; [lia|]. pose proof (get_idna_map_le c). pose proof (zlen_nonneg _ r).
    match goal with |- _ + ?k <= _ => assert (k <= 14 * zlen r); [|lia] end. apply after_le; [lia|auto].
  Qed.
  Lemma tr46_map1_T : forall flags c, T_tr46_map1 flags c <= 137.
  Proof.
    intros flags c. unfold T_tr46_map1. pose proof (get_idna_map_le c). match goal with |- _ + ?k <= _ => assert (k <= 124); [|lia] end.
    apply after_le; [lia|]. intros [m k] E. cbn [fst]. destruct (copies _ _ _); [|lia]. apply get_map_data_le. eapply get_idna_map_n, E.
  Qed.
  Lemma tr46_map_T : forall cap flags l tmp, T_tr46_map cap flags l tmp <= 138 * zlen l.
  Proof.
    intros cap flags. induction l as [|c r IH]; intros tmp; cbn [T_tr46_map]; rewrite ?zlen_nil, ?zlen_cons; [lia|]. pose proof (tr46_map1_T flags c). pose proof (zlen_nonneg _ r).
    match goal with |- _ + ?k <= _ => assert (k <= 138 * zlen r); [|lia] end. apply after_le; [lia|]. intros x _. destruct (_ <? _); [lia|apply IH].
  Qed.
  Lemma check1_T : forall flags s, T_tr46_check1 U flags s <= 457 * zlen s + 4417.
  Proof.
    intros flags s. unfold T_tr46_check1. cbv zeta. pose proof (zlen_nonneg _ s).
    assert (X : forall w l, In w [TR46_NONTRANSITIONAL_CHECK; if has flags IDN2_TRANSITIONAL then TR46_TRANSITIONAL_CHECK else TR46_NONTRANSITIONAL_CHECK] ->
      T_label_test U (Z.lor w (if has flags IDN2_USE_STD3_ASCII_RULES then 0 else TEST_ALLOW_STD3_DISALLOWED)) l <= 111 * zlen l).
    { intros w l I. apply label_test_le; [exact zwnj_not_T|]. destruct I as [<-|[<-|[]]]; [|destruct (has flags IDN2_TRANSITIONAL)]; destruct (has flags IDN2_USE_STD3_ASCII_RULES); reflexivity. }
    destruct (has_ace_prefix s).
    - pose proof (zlen_skipn_le _ 4 s). match goal with |- _ + ?k <= _ => assert (k <= 456 * zlen s + 4417); [|lia] end.
      apply after_le; [lia|]. intros ace E. apply conv_ok in E. apply u32_to_u8_len in E.
      pose proof (decode_le ace LABEL_MAX LABEL_MAX ltac:(unfold LABEL_MAX; lia)) as D. change ((LABEL_MAX + 1) * (LABEL_MAX + 6)) with 4416 in D.
      match goal with |- _ + ?k <= _ => assert (k <= 444 * zlen s); [|lia] end. apply after_le; [lia|]. intros name E2. apply decode_len in E2.
      pose proof (X TR46_NONTRANSITIONAL_CHECK name (or_introl eq_refl)). lia.
    - pose proof (X (if has flags IDN2_TRANSITIONAL then TR46_TRANSITIONAL_CHECK else TR46_NONTRANSITIONAL_CHECK) s (or_intror (or_introl eq_refl))). lia.
  Qed.
  Lemma checks_T : forall flags ls, T_tr46_checks U flags ls <= 458 * total ls + 4418 * zlen ls.
  Proof.
    intros flags. induction ls as [|s rest IH]; cbn [T_tr46_checks total fold_right]; rewrite ?zlen_nil, ?zlen_cons; [lia|]. fold (total rest).
    assert (R0 : 0 <= total rest) by (clear; induction rest as [|x r I]; cbn [total fold_right] in *; [lia|pose proof (zlen_nonneg _ x); unfold total in *; lia]).
    pose proof (zlen_nonneg _ rest). pose proof (check1_T flags s). pose proof (zlen_nonneg _ s).
    assert (B : T_scan s + T_tr46_check1 U flags s + match tr46_check1 U flags s with Ok (Ok _) | Ok (Fail _) => T_tr46_checks U flags rest | _ => 0 end
                <= 458 * (zlen s + total rest) + 4418 * (1 + zlen rest)); [|destruct s; [destruct rest|]; try exact B; rewrite ?zlen_nil in *; lia].
    unfold T_scan.
    destruct (tr46_check1 U flags s) as [ [ | | | ]| | |]; lia.
  Qed.
  Lemma removelast_len : forall (l : list Z), zlen (removelast l) <= zlen l.
  Proof. induction l as [|c [|d l] IH]; [cbn; lia|cbn [removelast]; rewrite zlen_nil, zlen_cons, zlen_nil; lia|]. change (removelast (c :: d :: l)) with (c :: removelast (d :: l)). rewrite !zlen_cons in *. lia. Qed.
  Lemma tr46_T : forall src flags, T_tr46 U src flags <= 154 * zlen src + 5100000.
  Proof.
    intros src flags. unfold T_tr46, T_scan. set (n := zlen src). assert (N : 0 <= n) by apply zlen_nonneg.
    match goal with |- _ + ?k <= _ => assert (k <= 152 * n + 5099900); [|lia] end.
    apply after_le; [lia|]. intros d E. apply conv_ok in E. apply (u8_to_u32_len (length (src ++ [0]))) in E; [|lia]. rewrite zlen_app in E. change (zlen [0]) with 1 in E. fold n in E.
    cbv zeta. pose proof (removelast_len d). pose proof (tr46_len_T flags (removelast d)). 
    match goal with |- _ + ?k <= _ => assert (k <= 138 * n + 5099800); [|lia] end.
    apply after_le; [lia|]. intros len2 _. destruct (DOMAIN_MAX <=? len2) eqn:E2; [lia|]. apply Z.leb_gt in E2. unfold DOMAIN_MAX in E2.
    pose proof (tr46_map_T (len2 + 1) flags (removelast d) []).
    match goal with |- _ + ?k <= _ => assert (k <= 5099600); [|lia] end.
    apply after_le; [lia|]. intros tmp _. destruct (_ <? _) eqn:E3; [lia|]. apply Z.ltb_ge in E3.
    apply after_le; [lia|]. intros nn En. apply conv_ok in En. apply fourfold in En. rewrite zlen_app in En. change (zlen [0]) with 1 in En.
    destruct (until0 nn) as [name|] eqn:Eu; [|lia]. apply until0_len in Eu. pose proof (checks_T flags (split_dots name)) as C. pose proof (split_total name) as S.
    pose proof (zlen_nonneg _ (split_dots name)). pose proof (zlen_nonneg _ name).
    assert (R0 : 0 <= total (split_dots name)) by (clear; induction (split_dots name) as [|x r I]; cbn [total fold_right] in *; [lia|pose proof (zlen_nonneg _ x); unfold total in *; lia]).
    match goal with |- _ + ?k <= _ => assert (k <= zlen nn); [|lia] end. pose proof (zlen_nonneg _ nn).
    apply after_le; [lia|]. intros err _. destruct (negb _); lia.
  Qed.
  Lemma tr46_len_out : forall src flags s, tr46 U src flags = Ok s -> zlen s <= 4080.
  Proof.
    intros src flags s H. unfold tr46 in H. apply bind_ok in H. destruct H as (d & _ & H). cbv zeta in H. apply bind_ok in H. destruct H as (len2 & _ & H).
    destruct (DOMAIN_MAX <=? len2) eqn:E2; [discriminate|]. apply Z.leb_gt in E2. unfold DOMAIN_MAX in E2.
    apply bind_ok in H. destruct H as (tmp & _ & H). destruct (_ <? _) eqn:E3; [discriminate|]. apply Z.ltb_ge in E3.
    apply bind_ok in H. destruct H as (nn & En & H). apply conv_ok in En. apply fourfold in En. rewrite zlen_app in En. change (zlen [0]) with 1 in En.
    destruct (until0 nn) as [name|]; [|discriminate]. apply bind_ok in H. destruct H as (err & _ & H). destruct (negb _); [discriminate|].
    apply bind_ok in H. destruct H as (o & Eo & H). apply conv_ok in Eo. apply u32_to_u8_len in Eo. destruct (until0 o) as [s'|] eqn:E4; [|discriminate]. apply until0_len in E4. apply Ok_inj in H. subst s'. lia.
  Qed.
  Lemma labels_top : forall flags src, T_lookup_labels U flags (split_dots src) [] <= 3770 * zlen src + 2538200.
  Proof.
    intros flags src. pose proof (lookup_labels_le flags (split_dots src) [] ltac:(rewrite zlen_nil; lia)) as L. rewrite zlen_nil in L. pose proof (split_total src).
    assert (1 <= zlen (split_dots src)); [|lia].
    destruct src as [|c s]; [cbn [split_dots]; rewrite zlen_cons, zlen_nil; lia|]. cbn [split_dots]. destruct (c =? 46); [rewrite zlen_cons; pose proof (zlen_nonneg _ (split_dots s)); lia|].
    destruct (split_dots s) as [|x xs]; rewrite zlen_cons; [rewrite zlen_nil; lia|pose proof (zlen_nonneg _ xs); lia].
  Qed.
  Lemma lookup_linear : forall src flags, T_lookup_u8 U src flags <= 3770 * zlen src + 25000000.
  Proof.
    intros src flags. unfold T_lookup_u8. pose proof (zlen_nonneg _ src). apply after_le; [lia|]. intros f _. destruct (has f IDN2_NO_TR46); cbn [negb].
    - cbn [after]. pose proof (labels_top f src). lia.
    - pose proof (tr46_T src f). match goal with |- _ + ?k <= _ => assert (k <= 18000000); [|lia] end.
      apply after_le; [lia|]. intros s E. apply tr46_len_out in E. pose proof (labels_top f s). lia.
  Qed.
  Lemma lookup_tr46 : forall src flags f, set_default_flags flags = Ok f -> has f IDN2_NO_TR46 = false -> T_lookup_u8 U src flags <= 154 * zlen src + 25000000.
  Proof.
    intros src flags f E H. unfold T_lookup_u8. rewrite E. cbn [after]. rewrite H. cbn [negb].
    pose proof (tr46_T src f). match goal with |- _ + ?k <= _ => assert (k <= 18000000); [|lia] end.
    apply after_le; [lia|]. intros s Es. apply tr46_len_out in Es. pose proof (labels_top f s). lia.
  Qed.

  Lemma reg_ulabel_le : forall u flags, T_reg_ulabel U u flags <= 16 * (zlen u * zlen u) + 1050 * zlen u + 600.
  Proof.
    intros u flags. unfold T_reg_ulabel, T_scan. set (m := zlen u). assert (M : 0 <= m) by apply zlen_nonneg. pose proof (ascii_le u) as A. fold m in A.
    match goal with |- _ + ?k <= _ => assert (k <= 16 * (m * m) + 1048 * m + 599); [|lia] end. assert (0 <= m * m) by nia.
    destruct (ascii_p u); [destruct (_ <? _); lia|]. pose proof (u8_to_u32_nfc_le U u (has flags IDN2_NFC_INPUT)) as B. fold m in B.
    match goal with |- _ + ?k <= _ => assert (k <= 16 * (m * m) + 1039 * m + 599); [|lia] end. apply after_le; [lia|]. intros l E.
    apply u8_to_u32_nfc_len in E; [|exact fourfold]. fold m in E. pose proof (zlen_nonneg _ l).
    pose proof (label_test_gen U REGISTER_TESTS l zwnj_not_T) as T. change (has REGISTER_TESTS TEST_CONTEXTO_RULE) with true in T. cbv iota in T.
    assert (zlen l * zlen l <= 16 * (m * m)) by nia.
    match goal with |- _ + ?k <= _ => assert (k <= 500 * m + 599); [|lia] end. apply after_le; [lia|]. intros _ _.
    change (LABEL_MAX - 4) with 59. change (LABEL_MAX - 3) with 60. pose proof (encode_le l 59 60 ltac:(lia)) as C.
    match goal with |- _ + ?k <= _ => assert (k <= 64); [|lia] end. apply after_le; [lia|]. intros e Ee. apply encode_len in Ee; lia.
  Qed.
  Lemma reg_alabel_le : forall u a, T_reg_alabel U u a <= zlen a + 2500000.
  Proof.
    intros u a. unfold T_reg_alabel, T_scan. pose proof (zlen_nonneg _ a). match goal with |- _ + ?k <= _ => assert (k <= 2499990); [|lia] end.
    destruct (LABEL_MAX <? zlen a) eqn:E; [lia|]. apply Z.ltb_ge in E. unfold LABEL_MAX in E. destruct (zlen a <=? 4); [lia|]. destruct (negb _); [lia|].
    pose proof (ascii_le a). match goal with |- _ + ?k <= _ => assert (k <= 2499900); [|lia] end. destruct (negb _); [lia|].
    change (DOMAIN_MAX * 4) with 1020. pose proof (decode_le (skipn 4 a) (LABEL_MAX * 4) 1020 ltac:(lia)) as D. pose proof (zlen_skipn_le _ 4 a).
    match goal with |- _ + ?k <= _ => assert (k <= 1450000); [|lia] end. apply after_le; [lia|]. intros l El. apply decode_len in El.
    match goal with |- _ + ?k <= _ => assert (k <= 1449900); [|lia] end. apply after_le; [lia|]. intros b _. destruct (_ <=? _) eqn:Eb; [lia|]. apply Z.leb_gt in Eb. unfold DOMAIN_MAX in Eb.
    cbv zeta. pose proof (upto0_len b). pose proof (zlen_nonneg _ (upto0 b)).
    assert (match u with Some s => T_list_eqb s (upto0 b) | None => 0 end <= 255) by (destruct u as [s|]; [pose proof (list_eqb_le2 s (upto0 b)); lia|lia]).
    match goal with |- _ + ?k <= _ => assert (k <= 1449600); [|lia] end. apply after_le; [lia|]. intros _ _.
    pose proof (reg_ulabel_le (upto0 b) 0). assert (zlen (upto0 b) * zlen (upto0 b) <= 255 * 255) by nia.
    match goal with |- _ + ?k <= _ => assert (k <= 63); [|lia] end. apply after_le; [lia|]. intros tmp _. pose proof (list_eqb_le a tmp). lia.
  Qed.
End Top.

Lemma unicode_labels_le : forall ls acc, zlen acc <= 255 -> T_unicode_labels ls acc <= 5 * total ls + (256 - zlen acc) * 4700.
Proof.
  induction ls as [|s rest IH]; intros acc H; cbn [T_unicode_labels total fold_right]; [lia|]. fold (total rest).
  assert (R0 : 0 <= total rest) by (clear; induction rest as [|x r I]; cbn [total fold_right] in *; [lia|pose proof (zlen_nonneg _ x); unfold total in *; lia]).
  pose proof (zlen_nonneg _ s). pose proof (zlen_nonneg _ acc).
  cut (T_scan s + T_unicode_label s +
       after (unicode_label s) (fun l =>
         if DOMAIN_MAX <? zlen acc + zlen l + match rest with [] => 0 | _ => 1 end then 0
         else if DOMAIN_MAX + 1 <? zlen acc + zlen l then 0
         else zlen l + match rest with [] => 0 | _ => after (put (DOMAIN_MAX + 1) (acc ++ l) 46) (fun acc' => T_unicode_labels rest acc') end)
       <= 5 * (zlen s + total rest) + (256 - zlen acc) * 4700).
  { intros K. destruct s as [|a s], rest as [|x rest]; [lia|exact K..]. }
  cbv zeta. unfold T_scan.
  assert (T_unicode_label s <= 4 * zlen s + 4417).
  { unfold T_unicode_label. destruct (ace_anycase s); [|lia]. pose proof (decode_le (skipn 4 s) LABEL_MAX LABEL_MAX ltac:(unfold LABEL_MAX; lia)) as D. change ((LABEL_MAX + 1) * (LABEL_MAX + 6)) with 4416 in D. pose proof (zlen_skipn_le _ 4 s). lia. }
  match goal with |- _ + ?k <= _ => assert (k <= 5 * total rest + 255 + (255 - zlen acc) * 4700); [|lia] end.
  apply after_le; [lia|]. intros l _. pose proof (zlen_nonneg _ l). unfold DOMAIN_MAX. destruct (_ <? _ + _) eqn:E; [lia|]. apply Z.ltb_ge in E. destruct (_ <? _); [lia|].
  assert (zlen l <= 255) by (destruct rest; lia).
  destruct rest as [|x rest]; [lia|]. match goal with |- _ + ?k <= _ => assert (k <= 5 * total (x :: rest) + (255 - zlen acc) * 4700); [|lia] end.
  apply after_le; [lia|]. intros acc' Ea. apply put_len in Ea. rewrite zlen_app in Ea. specialize (IH acc' ltac:(lia)). lia.
Qed.
Lemma unicode_linear : forall s, T_to_unicode_8z4z s <= 5 * zlen s + 1204000.
Proof.
  intros s. unfold T_to_unicode_8z4z. pose proof (unicode_labels_le (split_dots s) [] ltac:(rewrite zlen_nil; lia)) as L. rewrite zlen_nil in L.
  pose proof (split_total s). pose proof (zlen_nonneg _ (split_dots s)).
  match goal with |- _ + ?k <= _ => assert (k <= 600); [|lia] end. apply after_le; [lia|]. intros o E. unfold T_scan.
  assert (G : forall ls acc o, unicode_labels ls acc = Ok o -> zlen acc <= 256 -> zlen o <= 256 + 255).
  { clear. induction ls as [|s rest IH]; intros acc o E H; cbn [unicode_labels] in E; [apply Ok_inj in E; subst; lia|].
    assert (X : (let* l := unicode_label s in
            if DOMAIN_MAX <? zlen acc + zlen l + match rest with [] => 0 | _ => 1 end then Fail IDN2_TOO_BIG_DOMAIN
            else if DOMAIN_MAX + 1 <? zlen acc + zlen l then Undef
            else match rest with [] => Ok (acc ++ l) | _ => let* acc' := put (DOMAIN_MAX + 1) (acc ++ l) 46 in unicode_labels rest acc' end) = Ok o \/ o = acc)
      by (destruct s, rest; auto; right; apply Ok_inj in E; auto).
    destruct X as [X| ->]; [|lia]. apply bind_ok in X. destruct X as (l & _ & X). unfold DOMAIN_MAX in X. destruct (255 <? _) eqn:E1; [discriminate|]. apply Z.ltb_ge in E1. destruct (_ <? _); [discriminate|].
    destruct rest as [|x rest]; [apply Ok_inj in X; subst o; rewrite zlen_app; lia|].
    apply bind_ok in X. destruct X as (acc' & Ea & X). apply put_len in Ea. eapply IH; [exact X|lia]. }
  specialize (G _ _ _ E ltac:(rewrite zlen_nil; lia)). lia.
Qed.
