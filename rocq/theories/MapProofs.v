(** Splitting and joining names, and the mapping half of _tr46. *)
From Verif Require Import Base PunyBase Uenv DataTypes DataTr46 SpecUtf8 SpecTables SpecLabel SpecNfc SpecLookup Gentr46 Tr46Map
  Tr46Facts Utf8 Utf8Proofs Idna Lookup LabelProofs Puny.

(** ** join and split *)
Lemma split_nonempty : forall s, split_dots s <> [].
Proof. induction s as [|c s IH]; cbn [split_dots]; [congruence|]. destruct (c =? 46); [congruence|]. destruct (split_dots s); congruence. Qed.
Lemma join_split : forall s, join (split_dots s) = s.
Proof.
  induction s as [|c s IH]; [reflexivity|]. cbn [split_dots]. pose proof (split_nonempty s) as N.
  destruct (c =? 46) eqn:E.
  - apply Z.eqb_eq in E. subst c. destruct (split_dots s) as [|x xs]; [congruence|]. cbn [join app] in *. now rewrite IH.
  - destruct (split_dots s) as [|x [|y xs]]; [congruence| |]; cbn [join app] in *; now rewrite IH.
Qed.
Lemma split_nodot : forall s, Forall (fun l => ~ In 46 l) (split_dots s).
Proof.
  induction s as [|c s IH]; cbn [split_dots]; [constructor; auto|]. destruct (c =? 46) eqn:E; [constructor; auto|].
  apply Z.eqb_neq in E. destruct (split_dots s) as [|x xs]; inversion IH; subst; constructor; auto; intros [H|H]; auto.
Qed.
Lemma split_plain : forall l, ~ In 46 l -> split_dots l = [l].
Proof.
  induction l as [|c l IH]; intros H; [reflexivity|]. cbn [split_dots]. destruct (c =? 46) eqn:E.
  - apply Z.eqb_eq in E. subst. exfalso. apply H. now left.
  - rewrite IH; [reflexivity|]. intros K. apply H. now right.
Qed.
Lemma split_app : forall l s, ~ In 46 l -> split_dots (l ++ 46 :: s) = l :: split_dots s.
Proof.
  induction l as [|c l IH]; intros s H; [reflexivity|]. cbn [app split_dots]. destruct (c =? 46) eqn:E.
  - apply Z.eqb_eq in E. subst. exfalso. apply H. now left.
  - rewrite IH; [reflexivity|]. intros K. apply H. now right.
Qed.
Lemma split_join : forall ls, ls <> [] -> Forall (fun l => ~ In 46 l) ls -> split_dots (join ls) = ls.
Proof.
  induction ls as [|x ls IH]; intros N F; [congruence|]. inversion F; subst. destruct ls as [|y ls].
  - cbn [join]. now apply split_plain.
  - change (join (x :: y :: ls)) with (x ++ 46 :: join (y :: ls)). rewrite split_app by auto. rewrite IH; auto. discriminate.
Qed.
Lemma dotted_iff : forall ls s, dotted ls s <-> split_dots s = ls.
Proof.
  intros ls s. split.
  - intros (A & B & ->). now apply split_join.
  - intros <-. split; [apply split_nonempty|]. split; [apply split_nodot|]. now rewrite join_split.
Qed.
Lemma split_Forall : forall (P : Z -> Prop) s, Forall P s -> Forall (Forall P) (split_dots s).
Proof.
  induction 1 as [|c s Hc Hs IH]; cbn [split_dots]; [repeat constructor|]. destruct (c =? 46); [constructor; auto|].
  destruct (split_dots s); [repeat constructor; auto|]. inversion IH; subst. constructor; auto.
Qed.
Lemma join_Forall : forall (P : Z -> Prop) ls, P 46 -> Forall (Forall P) ls -> Forall P (join ls).
Proof.
  intros P ls D F. induction F as [|x ls Hx Hl IH]; [constructor|]. destruct ls as [|y ls]; [exact Hx|].
  change (join (x :: y :: ls)) with (x ++ 46 :: join (y :: ls)). apply Forall_app. split; auto.
Qed.
Lemma join_In : forall ls l c, In l ls -> In c l -> In c (join ls).
Proof.
  induction ls as [|x ls IH]; intros l c H K; [destruct H|]. destruct ls as [|y ls].
  - destruct H as [->|[]]. exact K.
  - change (join (x :: y :: ls)) with (x ++ 46 :: join (y :: ls)). apply in_or_app. destruct H as [->|H]; [now left|].
    right. right. eapply IH; eauto.
Qed.
Lemma split_In : forall s l c, In l (split_dots s) -> In c l -> In c s.
Proof. intros s l c H K. rewrite <- (join_split s). eapply join_In; eauto. Qed.

(** ** flags *)
Lemma has_nfc : forall f, has f IDN2_NFC_INPUT = opt_nfc f. Proof. intros f. apply (has_bit f 0). lia. Qed.
Lemma has_roundtrip : forall f, has f IDN2_ALABEL_ROUNDTRIP = opt_roundtrip f. Proof. intros f. apply (has_bit f 1). lia. Qed.
Lemma has_transitional : forall f, has f IDN2_TRANSITIONAL = opt_transitional f. Proof. intros f. apply (has_bit f 2). lia. Qed.
Lemma has_nontransitional : forall f, has f IDN2_NONTRANSITIONAL = opt_nontransitional f. Proof. intros f. apply (has_bit f 3). lia. Qed.
Lemma has_std3 : forall f, has f IDN2_USE_STD3_ASCII_RULES = opt_std3 f. Proof. intros f. apply (has_bit f 5). lia. Qed.
Lemma has_no_tr46 : forall f, has f IDN2_NO_TR46 = opt_no_tr46 f. Proof. intros f. apply (has_bit f 6). lia. Qed.
Lemma has_no_roundtrip : forall f, has f IDN2_NO_ALABEL_ROUNDTRIP = opt_no_roundtrip f. Proof. intros f. apply (has_bit f 7). lia. Qed.

(** ** the table *)
Lemma rows_map_ok : forallb (fun r => forallb (fun x => ((0 <? x) && (x <=? 55295)) || ((57344 <=? x) && (x <=? 1114111))) (r_map r)) idna_rows = true.
Proof. vm_cast_no_check (eq_refl true). Qed.
Lemma mapping_ok : forall c x, In x (mapping_of c) -> scalar x /\ x <> 0.
Proof.
  intros c x H. unfold mapping_of in H. destruct (idna_row c) as [r|] eqn:E; [|destruct H].
  apply find_in in E. destruct E as (I & _). pose proof rows_map_ok as A. rewrite forallb_forall in A. apply A in I.
  rewrite forallb_forall in I. apply I in H. rewrite orb_true_iff, !andb_true_iff, Z.ltb_lt, !Z.leb_le in H. unfold scalar. lia.
Qed.

(** Status and mapping of the ASCII code points. *)
Definition ascii_status (c : Z) : status :=
  if ((65 <=? c) && (c <=? 90)) then Mapped
  else if ((97 <=? c) && (c <=? 122)) || ((48 <=? c) && (c <=? 57)) || (c =? 45) || (c =? 46) then Valid else Std3Valid.
Definition zrange (n : nat) : list Z := map Z.of_nat (seq 0 n).
Lemma zrange_in : forall c n, 0 <= c < Z.of_nat n -> In c (zrange n).
Proof. intros c n H. unfold zrange. apply in_map_iff. exists (Z.to_nat c). split; [lia|]. apply in_seq. lia. Qed.
Lemma ascii_rows : forallb (fun c => status_eqb (status_of c) (ascii_status c) && (negb (status_eqb (ascii_status c) Mapped) || list_eqb (mapping_of c) [c + 32])) (zrange 128) = true.
Proof. vm_cast_no_check (eq_refl true). Qed.
Lemma status_ascii : forall c, 0 <= c < 128 -> status_of c = ascii_status c.
Proof.
  intros c H. pose proof ascii_rows as A. rewrite forallb_forall in A. specialize (A c (zrange_in c 128 H)).
  rewrite andb_true_iff in A. now apply status_eqb_iff.
Qed.
Lemma mapping_upper : forall c, 65 <= c <= 90 -> mapping_of c = [c + 32].
Proof.
  intros c H. pose proof ascii_rows as A. rewrite forallb_forall in A. specialize (A c (zrange_in c 128 ltac:(cbn; lia))).
  rewrite andb_true_iff in A. destruct A as (_ & A). unfold ascii_status in A.
  destruct ((65 <=? c) && (c <=? 90)) eqn:E; [|rewrite andb_false_iff, !Z.leb_gt in E; lia].
  cbn [status_eqb negb orb] in A. now apply list_eqb_iff.
Qed.
Global Opaque status_of mapping_of.

(** ** the two mapping passes *)
Lemma map_flags : forall c, 0 <= c -> exists m k, get_idna_map c = Ok (m, k) /\
  map_is m FLG_DISALLOWED = Ok (status_eqb (status_of c) Disallowed) /\
  map_is m FLG_MAPPED = Ok (status_eqb (status_of c) Mapped) /\
  map_is m FLG_VALID = Ok (status_eqb (status_of c) Valid) /\
  map_is m FLG_IGNORED = Ok (status_eqb (status_of c) Ignored) /\
  map_is m FLG_DEVIATION = Ok (status_eqb (status_of c) Deviation) /\
  map_is m FLG_DISALLOWED_STD3_VALID = Ok (status_eqb (status_of c) Std3Valid) /\
  map_is m FLG_DISALLOWED_STD3_MAPPED = Ok (status_eqb (status_of c) Std3Mapped) /\
  get_map_data m = Ok (mapping_of c) /\ m_n m = zlen (mapping_of c).
Proof.
  intros c H. destruct (map_facts c H) as (m & k & A & B & C & D). exists m, k.
  repeat (split; [solve [auto | exact (B Disallowed) | exact (B Mapped) | exact (B Valid) | exact (B Ignored) | exact (B Deviation) | exact (B Std3Valid) | exact (B Std3Mapped)]|]).
  auto.
Qed.
Lemma map1_spec : forall flags c, 0 <= c -> tr46_map1 flags c = Ok (map1 (opt_transitional flags) (opt_std3 flags) c).
Proof.
  intros flags c H. destruct (map_flags c H) as (m & k & A & B1 & B2 & B3 & B4 & B5 & B6 & B7 & C & D).
  unfold tr46_map1, map1. rewrite A. cbn [bind]. rewrite B1, B2, B3, B4, B5, B6, B7, C, has_transitional, has_std3.
  destruct (status_of c); cbn [bind status_eqb]; try reflexivity; destruct (opt_transitional flags), (opt_std3 flags); reflexivity.
Qed.
Lemma len1_spec : forall flags c, 0 <= c -> tr46_len1 flags c =
  if status_eqb (status_of c) Disallowed && negb (c =? 0) then Fail IDN2_DISALLOWED
  else Ok (zlen (map1 (opt_transitional flags) (opt_std3 flags) c)).
Proof.
  intros flags c H. destruct (map_flags c H) as (m & k & A & B1 & B2 & B3 & B4 & B5 & B6 & B7 & C & D).
  unfold tr46_len1, map1. rewrite A. cbn [bind]. rewrite B1, B2, B3, B4, B5, B6, B7, D, has_transitional, has_std3.
  destruct (status_of c); cbn [bind status_eqb andb]; try reflexivity; try (destruct (opt_transitional flags), (opt_std3 flags); reflexivity).
Qed.
Definition disallowedb (c : Z) : bool := status_eqb (status_of c) Disallowed.
Lemma disallowedb_iff : forall l, existsb disallowedb l = true <-> Exists (fun c => status_of c = Disallowed) l.
Proof.
  intros l. rewrite existsb_exists, Exists_exists. unfold disallowedb. split; intros (x & A & B); exists x; split; auto; now apply status_eqb_iff.
Qed.

Lemma len_spec : forall flags l n, Forall (fun c => 0 < c) l -> tr46_len flags l n =
  if existsb disallowedb l then Fail IDN2_DISALLOWED else Ok (n + zlen (uts46_map (opt_transitional flags) (opt_std3 flags) l)).
Proof.
  intros flags l. induction l as [|c l IH]; intros n F; cbn [tr46_len existsb].
  - unfold uts46_map. cbn [flat_map]. rewrite zlen_nil. f_equal. lia.
  - inversion F; subst. rewrite len1_spec by lia. unfold disallowedb at 1. assert (c =? 0 = false) as -> by (apply Z.eqb_neq; lia).
    rewrite andb_true_r. destruct (status_eqb (status_of c) Disallowed); cbn [bind orb]; [reflexivity|]. rewrite IH by auto.
    destruct (existsb disallowedb l); [reflexivity|]. unfold uts46_map. cbn [flat_map]. rewrite zlen_app. f_equal. lia.
Qed.
Lemma mapping_spec : forall cap flags l tmp, Forall (fun c => 0 <= c) l ->
  zlen tmp + zlen (uts46_map (opt_transitional flags) (opt_std3 flags) l) <= cap ->
  tr46_map cap flags l tmp = Ok (tmp ++ uts46_map (opt_transitional flags) (opt_std3 flags) l).
Proof.
  intros cap flags l. induction l as [|c l IH]; intros tmp F H; cbn [tr46_map].
  - unfold uts46_map. cbn [flat_map]. now rewrite app_nil_r.
  - inversion F; subst. rewrite map1_spec by auto. cbn [bind]. unfold uts46_map in *. cbn [flat_map] in H. rewrite zlen_app in H.
    pose proof (zlen_nonneg _ (flat_map (map1 (opt_transitional flags) (opt_std3 flags)) l)).
    destruct (_ <? _) eqn:E; [apply Z.ltb_lt in E; lia|]. rewrite IH by (auto; rewrite zlen_app; lia).
    cbn [flat_map]. now rewrite app_assoc.
Qed.

(** ** strings and NUL *)
Lemma until0_app : forall l r, ~ In 0 l -> until0 (l ++ 0 :: r) = Some l.
Proof.
  induction l as [|c l IH]; intros r H; cbn [app until0]; [reflexivity|]. destruct (c =? 0) eqn:E.
  - apply Z.eqb_eq in E. subst. exfalso. apply H. now left.
  - rewrite IH; [reflexivity|]. intros K. apply H. now right.
Qed.
Lemma c_string_bytes : forall s, c_string s -> bytes s.
Proof. intros s. apply Forall_impl. lia. Qed.
Lemma utf8_char_pos : forall c bs, utf8_char c bs -> Forall (fun b => 0 < b) bs -> 0 < c.
Proof. intros c bs H F. inversion H; subst; inversion F; subst; unfold scalar in *; lia. Qed.
Lemma utf8_char_nodot : forall c bs, utf8_char c bs -> In 46 bs -> c = 46.
Proof. intros c bs H F. inversion H; subst; cbn [In] in F; unfold scalar in *; lia. Qed.
Lemma utf8_char_sep : forall c bs x, utf8_char c bs -> 0 <= x < 128 -> (In x bs <-> c = x).
Proof.
  intros c bs x H F. inversion H; subst; cbn [In]; unfold scalar in *; lia.
Qed.
Lemma utf8_In : forall l s x, utf8 l s -> 0 <= x < 128 -> (In x s <-> In x l).
Proof.
  intros l s x H R. induction H as [|c bs l s Hc Hs IH]; [tauto|]. rewrite in_app_iff, IH. cbn [In].
  rewrite (utf8_char_sep c bs x Hc R). tauto.
Qed.
Lemma utf8_c_string : forall l s, utf8 l s -> c_string s -> Forall (fun c => 0 < c) l.
Proof.
  induction 1 as [|c bs l s Hc Hs IH]; intros F; [constructor|]. apply Forall_app in F. destruct F as (F1 & F2).
  constructor; auto. apply (utf8_char_pos c bs Hc). eapply Forall_impl; [|exact F1]. cbv beta. lia.
Qed.
Lemma utf8_scalar : forall l s, utf8 l s -> Forall scalar l.
Proof. intros l s H. apply u32_to_u8_iff in H. now apply u32_to_u8_scalar in H. Qed.
Lemma utf8_bytes : forall l s, utf8 l s -> bytes s.
Proof. intros l s H. apply u32_to_u8_iff in H. now apply u32_to_u8_bytes in H. Qed.
Lemma utf8_ascii : forall s, Forall (fun c => 0 <= c < 128) s -> utf8 s s.
Proof. intros s H. apply u32_to_u8_iff. now apply u32_to_u8_ascii. Qed.
Lemma scalar_nonneg : forall l, Forall scalar l -> Forall (fun c => 0 <= c) l.
Proof. intros l. apply Forall_impl. unfold scalar. lia. Qed.

Lemma map1_ok : forall tr std3 c x, scalar c -> c <> 0 -> In x (map1 tr std3 c) -> scalar x /\ x <> 0.
Proof.
  intros tr std3 c x S N H. unfold map1 in H. destruct (status_of c); try (destruct tr); try (destruct std3); cbn [In] in H;
  try (destruct H as [<-|[]]; auto; fail); try contradiction; eapply mapping_ok; eauto.
Qed.
Lemma uts46_map_ok : forall tr std3 l, Forall scalar l -> Forall (fun c => 0 < c) l ->
  Forall scalar (uts46_map tr std3 l) /\ ~ In 0 (uts46_map tr std3 l).
Proof.
  intros tr std3 l S N.
  assert (G : forall x, In x (uts46_map tr std3 l) -> scalar x /\ x <> 0).
  { intros x H. unfold uts46_map in H. apply in_flat_map in H. destruct H as (c & Hc & Hx). rewrite Forall_forall in S, N.
    eapply map1_ok; [| |exact Hx]; auto. specialize (N c Hc). lia. }
  split.
  - apply Forall_forall. intros x H. now apply G.
  - intros H. destruct (G 0 H) as (_ & K). congruence.
Qed.

(** ** _tr46 as a whole *)
Definition tr46_spec (U : uenv) (src : list Z) (flags : Z) : out (list Z) :=
  match u8_to_u32 src with
  | None => Fail IDN2_ENCODING_ERROR
  | Some l =>
      if existsb disallowedb l then Fail IDN2_DISALLOWED else
      let m := uts46_map (opt_transitional flags) (opt_std3 flags) l in
      if 255 <=? zlen m then Fail IDN2_TOO_BIG_DOMAIN else
      match ue_nfc U m with
      | None => Fail IDN2_ENCODING_ERROR
      | Some n =>
          let* err := tr46_checks U flags (split_dots n) IDN2_OK in
          if negb (err =? IDN2_OK) then Fail err else
          conv (u32_to_u8 n) IDN2_ENCODING_ERROR
      end
  end.
Lemma removelast_snoc : forall (l : list Z) x, removelast (l ++ [x]) = l.
Proof. intros. apply removelast_last. Qed.

Lemma utf8_app_nil : forall l s, utf8 l (s ++ [0]) -> exists l', l = l' ++ [0] /\ utf8 l' s.
Proof.
  intros l s H. remember (s ++ [0]) as t eqn:E. revert s E. induction H as [|c bs l t Hc Ht IH]; intros s E.
  - destruct s; discriminate.
  - destruct l as [|c2 l2].
    + inversion Ht; subst t. rewrite app_nil_r in E. exists [].
      assert (c = 0) as -> by (apply (utf8_char_sep c bs 0 Hc); [lia|]; rewrite E; apply in_or_app; right; now left).
      apply uctomb_complete in Hc. change (u8_uctomb 0) with (Some [0]) in Hc. injection Hc as <-.
      destruct s as [|x [|x2 s]]; [|discriminate|discriminate]. split; [reflexivity|constructor].
    + assert (N : t <> []) by (inversion Ht as [|? bb ? ? Hb ? ]; subst; destruct bb; [inversion Hb|discriminate]).
      destruct (exists_last N) as (t' & z & Ez). rewrite Ez, app_assoc in E. apply app_inj_tail in E. destruct E as (E1 & ->).
      destruct (IH t' Ez) as (l' & Hl & Hl'). exists (c :: l'). rewrite Hl. split; [reflexivity|]. rewrite <- E1. now constructor.
Qed.
Lemma u8_to_u32_nul : forall s, bytes s ->
  u8_to_u32 (s ++ [0]) = match u8_to_u32 s with Some l => Some (l ++ [0]) | None => None end.
Proof.
  intros s B. assert (B' : bytes (s ++ [0])) by (apply Forall_app; split; auto; repeat constructor; lia).
  destruct (u8_to_u32 s) as [l|] eqn:E.
  - rewrite (u8_to_u32_app l s [0] E B). reflexivity.
  - destruct (u8_to_u32 (s ++ [0])) as [l|] eqn:E2; [|reflexivity]. apply u8_to_u32_iff in E2; auto.
    destruct (utf8_app_nil _ _ E2) as (l' & _ & H). apply u8_to_u32_iff in H; auto. congruence.
Qed.

Lemma nfc_nul : forall U m, nfc_ok U -> ~ In 0 m -> match ue_nfc U m with
  | Some n => ue_nfc U (m ++ [0]) = Some (n ++ [0]) /\ ~ In 0 n
  | None => ue_nfc U (m ++ [0]) = None end.
Proof.
  intros U m K N. rewrite (nfc_separator U K 0 m []) by now left. rewrite (nfc_ascii U K []) by constructor.
  destruct (ue_nfc U m) as [n|] eqn:E; [|reflexivity]. split; [reflexivity|]. intros H. apply N.
  eapply (nfc_no_separator U K 0); eauto. now left.
Qed.

Lemma tr46_eq : forall U src flags, nfc_ok U -> c_string src -> tr46 U src flags = tr46_spec U src flags.
Proof.
  intros U src flags K C. unfold tr46, tr46_spec. pose proof (c_string_bytes _ C) as B. rewrite u8_to_u32_nul by auto.
  destruct (u8_to_u32 src) as [l|] eqn:E; cbn [conv bind]; [|reflexivity].
  apply u8_to_u32_iff in E; auto. rewrite removelast_snoc. pose proof (utf8_c_string _ _ E C) as P.
  pose proof (utf8_scalar _ _ E) as S. rewrite len_spec by auto. destruct (existsb disallowedb l); [reflexivity|]. cbn [bind].
  set (m := uts46_map (opt_transitional flags) (opt_std3 flags) l). destruct (uts46_map_ok (opt_transitional flags) (opt_std3 flags) l S P) as (M1 & M2).
  fold m in M1, M2. rewrite Z.add_0_l. change DOMAIN_MAX with 255. destruct (255 <=? zlen m) eqn:L; [reflexivity|].
  rewrite mapping_spec; [|now apply scalar_nonneg|rewrite zlen_nil; fold m; lia]. cbn [bind app]. fold m.
  rewrite Z.ltb_irrefl. pose proof (nfc_nul U m K M2) as NN. destruct (ue_nfc U m) as [n|] eqn:EN.
  - destruct NN as (N1 & N2). rewrite N1. cbn [conv bind]. rewrite until0_app by auto.
    destruct (tr46_checks U flags (split_dots n) IDN2_OK) as [err| | |]; cbn [bind]; try reflexivity.
    destruct (negb (err =? IDN2_OK)); [reflexivity|]. rewrite u32_to_u8_app. change (u32_to_u8 [0]) with (Some [0]).
    destruct (u32_to_u8 n) as [o|] eqn:EO; cbn [conv bind]; [|reflexivity]. rewrite until0_app; [reflexivity|].
    apply u32_to_u8_iff in EO. rewrite (utf8_In _ _ 0 EO) by lia. exact N2.
  - rewrite NN. reflexivity.
Qed.
