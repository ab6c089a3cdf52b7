(** How long UTS 46 can make a name, and what follows for sizes of W bits. *)
From Verif Require Import Base PunyBase Uenv DataTypes DataTr46 SpecUtf8 SpecTables SpecLabel SpecLookup Gentr46 Tr46Map Tr46Facts
  Utf8 Utf8Proofs Idna Puny Lookup Api MapProofs LookupTr46 ApiProofs Width SpecWidth WidthProofs.

(** ** One code point *)
Definition row_short (r : row) : bool :=
  let n := zlen (r_map r) in
  (n <=? 18) && ((128 <=? r_lo r) || (n <=? 1)) && ((2048 <=? r_lo r) || (n <=? 3)) && ((r_hi r <? 65536) || (n <=? 3)) &&
  (status_eqb (r_status r) Std3Mapped || (n <=? 6)).
Lemma rows_short : forallb row_short idna_rows = true.
Proof. vm_compute. reflexivity. Qed.
Local Transparent mapping_of status_of.
Lemma mapping_short : forall c, zlen (mapping_of c) <= 18 /\ (c < 128 -> zlen (mapping_of c) <= 1) /\ (c < 2048 -> zlen (mapping_of c) <= 3) /\
  (65536 <= c -> zlen (mapping_of c) <= 3) /\ (status_of c <> Std3Mapped -> zlen (mapping_of c) <= 6).
Proof.
  intros c. unfold mapping_of, status_of. destruct (idna_row c) as [r|] eqn:E; [|rewrite zlen_nil; repeat split; intros; lia].
  apply find_in in E. destruct E as (I & R). pose proof (proj1 (forallb_forall _ _) rows_short r I) as S. unfold row_short in S. cbv zeta in S.
  rewrite !andb_true_iff, !orb_true_iff, !Z.leb_le, !Z.ltb_lt, status_eqb_iff in S. destruct S as ((((S1 & S2) & S3) & S4) & S5).
  split; [lia|]. split; [intros; lia|]. split; [intros; lia|]. split; [intros; lia|]. intros N. destruct S5 as [S5|S5]; [contradiction|lia].
Qed.
Local Opaque mapping_of status_of.
Lemma map1_short : forall tr std3 c, zlen (map1 tr std3 c) <= 18 /\ (c < 128 -> zlen (map1 tr std3 c) <= 1) /\ (c < 2048 -> zlen (map1 tr std3 c) <= 3) /\
  (65536 <= c -> zlen (map1 tr std3 c) <= 3) /\ (std3 = true -> zlen (map1 tr std3 c) <= 6).
Proof.
  intros tr std3 c. pose proof (mapping_short c) as (A & B & C & D & E). unfold map1.
  destruct (status_of c) eqn:S; try (destruct tr); try (destruct std3); change (zlen [c]) with 1; rewrite ?zlen_nil;
    repeat match goal with |- _ /\ _ => split end; intros; try lia; try discriminate; try (apply E; discriminate); auto.
Qed.

(** ** Names *)
Lemma growth : forall tr std3 l s, utf8 l s -> exists k r, zlen s = 3 * k + r /\ 0 <= k /\
  ((r = 0 /\ zlen (uts46_map tr std3 l) <= 18 * k) \/ (r = 1 /\ zlen (uts46_map tr std3 l) <= 18 * k + 1) \/ (r = 2 /\ zlen (uts46_map tr std3 l) <= 18 * k + 3)).
Proof.
  intros tr std3. unfold uts46_map. induction 1 as [|c bs l s Hc Hs IH].
  - exists 0, 0. cbn [flat_map]. rewrite !zlen_nil. lia.
  - destruct IH as (k & r & L & K & IH). cbn [flat_map]. rewrite !zlen_app. set (x := zlen (flat_map (map1 tr std3) l)) in *.
    pose proof (map1_short tr std3 c) as (A & B & C & D & _). pose proof (zlen_nonneg _ (map1 tr std3 c)). set (y := zlen (map1 tr std3 c)) in *.
    destruct Hc; rewrite ?zlen_cons, ?zlen_nil; destruct IH as [(-> & IH)|[(-> & IH)|(-> & IH)]].
    + exists k, 1. lia.
    + exists k, 2. lia.
    + exists (k + 1), 0. lia.
    + exists k, 2. lia.
    + exists (k + 1), 0. lia.
    + exists (k + 1), 1. lia.
    + exists (k + 1), 0. lia.
    + exists (k + 1), 1. lia.
    + exists (k + 1), 2. lia.
    + exists (k + 1), 1. lia.
    + exists (k + 1), 2. lia.
    + exists (k + 2), 0. lia.
Qed.
Lemma growth_std3 : forall tr l s, utf8 l s -> zlen (uts46_map tr true l) <= 2 * zlen s.
Proof.
  intros tr. unfold uts46_map. induction 1 as [|c bs l s Hc Hs IH]; [cbn [flat_map]; rewrite !zlen_nil; lia|].
  cbn [flat_map]. rewrite !zlen_app. pose proof (map1_short tr true c) as (A & B & C & D & E). specialize (E eq_refl).
  destruct Hc; rewrite ?zlen_cons, ?zlen_nil; lia.
Qed.
Lemma growth_points : forall tr std3 l, zlen (uts46_map tr std3 l) <= 18 * zlen l.
Proof.
  intros tr std3. unfold uts46_map. induction l as [|c l IH]; [cbn [flat_map]; rewrite !zlen_nil; lia|]. cbn [flat_map]. rewrite zlen_app, zlen_cons.
  pose proof (map1_short tr std3 c) as (A & _). lia.
Qed.

(** ** Lookup *)
Lemma wraps_eff : forall W f src, passes_wrapped W (eff f) src <-> passes_wrapped W f src.
Proof. intros. unfold passes_wrapped, maps_to_length. rewrite eff_transitional, eff_std3. reflexivity. Qed.
Lemma wlookup_wraps : forall W U src flags, 16 <= W -> c_string src -> zlen src + 1 < 2 ^ W -> mapping_on flags -> passes_wrapped W flags src ->
  wlookup_u8 W U src flags = Undef.
Proof.
  intros W U src flags H C L (G & N) P. unfold wlookup_u8. destruct (set_flags_spec flags) as [(B & _)|(_ & ->)]; [contradiction|]. cbn [bind].
  rewrite has_no_tr46, eff_no_tr46, N. cbn [negb]. rewrite (proj1 (wtr46_exact W U src (eff flags) H C L)); [reflexivity|]. now apply wraps_eff.
Qed.
Lemma wlookup_same : forall W U src flags, 16 <= W -> c_string src -> zlen src + 1 < 2 ^ W -> (mapping_on flags -> ~ passes_wrapped W flags src) ->
  wlookup_u8 W U src flags = lookup_u8 U src flags.
Proof.
  intros W U src flags H C L P. unfold wlookup_u8, lookup_u8. destruct (set_flags_spec flags) as [(_ & ->)|(G & ->)]; [reflexivity|]. cbn [bind].
  rewrite has_no_tr46, eff_no_tr46. destruct (opt_no_tr46 flags) eqn:N; cbn [negb]; [reflexivity|].
  rewrite (proj2 (wtr46_exact W U src (eff flags) H C L)); [reflexivity|]. rewrite wraps_eff. apply P. now split.
Qed.
Lemma wlookup_fits : forall W U src flags, 16 <= W -> c_string src -> zlen src + 1 < 2 ^ W ->
  (forall n, maps_to_length flags src n -> n < 2 ^ W) -> wlookup_u8 W U src flags = lookup_u8 U src flags.
Proof. intros W U src flags H C L F. apply wlookup_same; auto. intros _ (n & M & G & _). apply F in M. lia. Qed.
Lemma wlookup_short : forall W U src flags, 16 <= W -> c_string src -> 6 * zlen src < 2 ^ W -> wlookup_u8 W U src flags = lookup_u8 U src flags.
Proof.
  intros W U src flags H C L. pose proof (pow_16 W H). pose proof (zlen_nonneg _ src). apply wlookup_fits; auto; [lia|].
  intros n (l & E & _ & ->). destruct (growth (opt_transitional flags) (opt_std3 flags) l src E) as (k & r & Lk & K & G). lia.
Qed.
Lemma pow32 : 2 ^ 32 = 4294967296. Proof. reflexivity. Qed.
Lemma wlookup_32 : forall U src flags, c_string src -> zlen src < 715827885 -> wlookup_u8 32 U src flags = lookup_u8 U src flags.
Proof.
  intros U src flags C L. apply wlookup_fits; auto; [lia|rewrite pow32; lia|]. rewrite pow32. intros n (l & E & _ & ->).
  destruct (growth (opt_transitional flags) (opt_std3 flags) l src E) as (k & r & Lk & K & G). lia.
Qed.
Lemma wlookup_64 : forall U src flags, c_string src -> zlen src < 2 ^ 61 -> wlookup_u8 64 U src flags = lookup_u8 U src flags.
Proof. intros U src flags C L. apply wlookup_short; auto; [lia|]. change (2 ^ 64) with (8 * 2 ^ 61). lia. Qed.
Lemma wlookup_std3 : forall W U src flags, 16 <= W -> c_string src -> zlen src < 2 ^ (W - 1) -> opt_std3 flags = true ->
  wlookup_u8 W U src flags = lookup_u8 U src flags.
Proof.
  intros W U src flags H C L S. assert (2 ^ W = 2 * 2 ^ (W - 1)) as P by (rewrite <- Z.pow_succ_r by lia; f_equal; lia).
  pose proof (pow_16 W H). apply wlookup_fits; auto; [lia|]. intros n (l & E & _ & ->). rewrite S. pose proof (growth_std3 (opt_transitional flags) l src E). lia.
Qed.
Lemma wlookup_no_tr46 : forall W U src flags, opt_no_tr46 flags = true -> wlookup_u8 W U src flags = lookup_u8 U src flags.
Proof.
  intros W U src flags N. unfold wlookup_u8, lookup_u8. destruct (set_flags_spec flags) as [(_ & ->)|(G & ->)]; [reflexivity|]. cbn [bind].
  rewrite has_no_tr46, eff_no_tr46, N. reflexivity.
Qed.

(** ** The witness: U+FDFA again and again *)
Lemma fdfa_facts : status_of fdfa = Std3Mapped /\ zlen (mapping_of fdfa) = 18.
Proof. Transparent mapping_of status_of. vm_compute. split; reflexivity. Qed.
Lemma fdfa_char : utf8_char fdfa fdfa_utf8.
Proof. apply uctomb_sound. reflexivity. Qed.
Lemma times_utf8 : forall n, utf8 (repeat fdfa n) (times n fdfa_utf8).
Proof. induction n as [|n IH]; cbn [repeat times]; [constructor|]. constructor; [apply fdfa_char|exact IH]. Qed.
Lemma times_len : forall n, zlen (times n fdfa_utf8) = 3 * Z.of_nat n.
Proof. induction n as [|n IH]; [reflexivity|]. cbn [times]. rewrite zlen_app, IH. change (zlen fdfa_utf8) with 3. lia. Qed.
Lemma times_string : forall n, c_string (times n fdfa_utf8).
Proof. induction n as [|n IH]; cbn [times]; [constructor|]. apply Forall_app. split; [|exact IH]. unfold fdfa_utf8. repeat constructor; lia. Qed.
Lemma repeat_len : forall n, zlen (repeat fdfa n) = Z.of_nat n.
Proof. intros n. unfold zlen. now rewrite repeat_length. Qed.
Lemma times_maps : forall flags n, opt_std3 flags = false -> maps_to_length flags (times n fdfa_utf8) (18 * Z.of_nat n).
Proof.
  intros flags n S. destruct fdfa_facts as (F1 & F2). exists (repeat fdfa n). split; [apply times_utf8|]. rewrite S. split.
  - apply Forall_forall. intros c I. apply repeat_spec in I. subst c. rewrite F1. discriminate.
  - induction n as [|n IH]; [reflexivity|]. cbn [repeat]. unfold uts46_map in *. cbn [flat_map]. rewrite zlen_app, <- IH.
    assert (zlen (map1 (opt_transitional flags) false fdfa) = 18) as -> by (unfold map1; now rewrite F1). lia.
Qed.
Definition many : nat := Z.to_nat 238609295.
Lemma many_Z : Z.of_nat many = 238609295. Proof. unfold many. apply Z2Nat.id. lia. Qed.
Opaque many.
Lemma many_passes : forall flags, opt_std3 flags = false -> passes_wrapped 32 flags (times many fdfa_utf8).
Proof.
  intros flags S. exists (18 * Z.of_nat many). split; [now apply times_maps|]. rewrite many_Z, pow32. change (18 * 238609295) with 4294967310.
  split; [lia|]. change (4294967310 mod 4294967296) with 14. lia.
Qed.
Lemma wlookup_many : forall U flags, mapping_on flags -> opt_std3 flags = false -> wlookup_u8 32 U (times many fdfa_utf8) flags = Undef.
Proof.
  intros U flags M S. apply wlookup_wraps; auto; [lia|apply times_string|rewrite times_len, many_Z, pow32; lia|now apply many_passes].
Qed.
Lemma lookup_many : forall U flags, mapping_on flags -> opt_std3 flags = false -> lookup_u8 U (times many fdfa_utf8) flags = Fail IDN2_TOO_BIG_DOMAIN.
Proof.
  intros U flags (G & N) S. unfold lookup_u8. destruct (set_flags_spec flags) as [(B & _)|(_ & ->)]; [contradiction|]. cbn [bind].
  rewrite has_no_tr46, eff_no_tr46, N. cbn [negb]. unfold tr46. pose proof (times_string many) as C. rewrite u8_to_u32_nul by now apply c_string_bytes.
  rewrite (u8_to_u32_complete _ _ (times_utf8 many)). cbn [conv bind]. rewrite removelast_snoc.
  assert (S' : opt_std3 (eff flags) = false) by now rewrite eff_std3. destruct (times_maps (eff flags) many S') as (l & E & D & L).
  assert (l = repeat fdfa many) as -> by (apply u8_to_u32_complete in E; rewrite (u8_to_u32_complete _ _ (times_utf8 many)) in E; congruence).
  rewrite len_spec by exact (utf8_c_string _ _ (times_utf8 many) C). assert (existsb disallowedb (repeat fdfa many) = false) as -> by now apply disallowed_none.
  cbn [bind]. rewrite <- L, many_Z. reflexivity.
Qed.

(** ** Arrays *)
Lemma terminated_ok : forall W l, 16 <= W -> 4 * (zlen l + 1) < 2 ^ W -> terminated W l = Ok (l ++ [0]).
Proof.
  intros W l H L. pose proof (zlen_nonneg _ l). unfold terminated, room, size. rewrite (Z.mod_small (zlen l + 1)) by lia. rewrite Z.mod_small by lia.
  rewrite Z.div_mul by lia. now rewrite Z.ltb_irrefl.
Qed.
Lemma terminated_over : forall W l, 16 <= W -> 4 * (zlen l + 1) = 2 ^ W -> terminated W l = Undef.
Proof.
  intros W l H L. pose proof (zlen_nonneg _ l). unfold terminated, room, size. rewrite (Z.mod_small (zlen l + 1)) by lia.
  replace ((zlen l + 1) * 4) with (2 ^ W) by lia. rewrite Z.mod_same by lia. change (0 / 4) with 0. assert (0 <? zlen l + 1 = true) as -> by (apply Z.ltb_lt; lia). reflexivity.
Qed.
Lemma w44i_same : forall W junk l arr outlen flags, 16 <= W -> 4 * (zlen l + 1) < 2 ^ W ->
  wto_unicode_44i W junk (Some l) arr outlen flags = to_unicode_44i junk (Some l) arr outlen flags.
Proof. intros. unfold wto_unicode_44i. rewrite terminated_ok by auto. reflexivity. Qed.
Lemma w44i_over : forall W junk l arr outlen flags, 16 <= W -> 4 * (zlen l + 1) = 2 ^ W -> wto_unicode_44i W junk (Some l) arr outlen flags = Undef.
Proof. intros. unfold wto_unicode_44i. rewrite terminated_over by auto. reflexivity. Qed.
Lemma upto0_utf8 : forall l s, utf8 l s -> utf8 (upto0 l) (upto0 s).
Proof.
  induction 1 as [|c bs l s Hc Hs IH]; [constructor|]. cbn [upto0]. destruct (c =? 0) eqn:E.
  - apply Z.eqb_eq in E. subst c. apply uctomb_complete in Hc. change (u8_uctomb 0) with (Some [0]) in Hc. injection Hc as <-. constructor.
  - apply Z.eqb_neq in E. assert (N : ~ In 0 bs) by (intros I; apply E; apply (utf8_char_sep c bs 0 Hc); [lia|exact I]).
    assert (upto0 (bs ++ s) = bs ++ upto0 s) as ->.
    { clear -N. induction bs as [|b bs IH]; [reflexivity|]. cbn [app upto0]. destruct (b =? 0) eqn:E; [apply Z.eqb_eq in E; exfalso; apply N; now left|]. rewrite IH; [reflexivity|]. intros I. apply N. now right. }
    now constructor.
Qed.
Lemma w4i2_same : forall W U junk l o flags, 16 <= W -> 18 * zlen l < 2 ^ W -> wto_ascii_4i2 W U junk (Some l) o flags = to_ascii_4i2 U junk (Some l) o flags.
Proof.
  intros W U junk l o flags H L. pose proof (pow_16 W H). pose proof (zlen_nonneg _ l). unfold wto_ascii_4i2, to_ascii_4i2.
  rewrite terminated_ok by (auto; lia). cbn [bind]. destruct (u32_to_u8 (l ++ [0])) as [b|] eqn:E; [|reflexivity].
  apply conv0_inv in E. destruct E as (s & E & ->). pose proof (utf8_prefix l s E) as C. unfold widn2_lookup_u8, idn2_lookup_u8.
  rewrite wlookup_fits; auto.
  - rewrite upto0_term. pose proof (upto0_zlen s). pose proof (utf8_len _ _ E). lia.
  - intros n (l' & E' & _ & ->). pose proof (growth_points (opt_transitional flags) (opt_std3 flags) l'). enough (zlen l' <= zlen l) by lia.
    rewrite upto0_term in E'. apply u8_to_u32_complete in E'. rewrite (u8_to_u32_complete _ _ (upto0_utf8 _ _ E)) in E'. injection E' as <-. apply upto0_zlen.
Qed.
Lemma w4i_same : forall W U junk l a flags, 16 <= W -> 18 * zlen l < 2 ^ W -> wto_ascii_4i W U junk (Some l) a flags = to_ascii_4i U junk (Some l) a flags.
Proof. intros. unfold wto_ascii_4i, to_ascii_4i. rewrite w4i2_same by auto. reflexivity. Qed.
Lemma many_no0 : forall n, upto0 (times n fdfa_utf8 ++ [0]) = times n fdfa_utf8.
Proof. intros n. apply (conv_str (repeat fdfa n)); [|apply times_utf8]. intros I. apply repeat_spec in I. discriminate I. Qed.
Lemma w4i2_many : forall U junk o flags, mapping_on flags -> opt_std3 flags = false -> wto_ascii_4i2 32 U junk (Some (repeat fdfa many)) o flags = Undef.
Proof.
  intros U junk o flags M S. unfold wto_ascii_4i2. rewrite terminated_ok; [|lia|rewrite repeat_len, many_Z, pow32; lia]. cbn [bind].
  rewrite u32_to_u8_app. rewrite (proj2 (u32_to_u8_iff _ _) (times_utf8 many)). change (u32_to_u8 [0]) with (Some [0]). cbv iota beta.
  rewrite many_no0. unfold widn2_lookup_u8. rewrite wlookup_many by auto. reflexivity.
Qed.
Lemma w4i_many : forall U junk a flags, mapping_on flags -> opt_std3 flags = false -> wto_ascii_4i 32 U junk (Some (repeat fdfa many)) a flags = Undef.
Proof. intros. unfold wto_ascii_4i. rewrite w4i2_many by auto. reflexivity. Qed.
Lemma default_on : mapping_on 0 /\ opt_std3 0 = false.
Proof. split; [split; [|reflexivity]|reflexivity]. intros [(A & _)|[(A & _)|(A & _)]]; discriminate A. Qed.

(** ** Statements for PropWidth *)
Lemma growth_top : forall flags src n, maps_to_length flags src n -> n <= growth_bound (zlen src).
Proof.
  intros flags src n (l & E & _ & ->). destruct (growth (opt_transitional flags) (opt_std3 flags) l src E) as (k & r & Lk & K & G). unfold growth_bound.
  assert (R : 0 <= r < 3) by lia. rewrite <- (Z.div_unique_pos (zlen src) 3 k r R Lk), <- (Z.mod_unique_pos (zlen src) 3 k r R Lk).
  destruct G as [(-> & G)|[(-> & G)|(-> & G)]]; cbn [Z.eqb Pos.eqb]; lia.
Qed.
Lemma growth_reached : forall flags k, opt_std3 flags = false ->
  zlen (times k fdfa_utf8) = 3 * Z.of_nat k /\ maps_to_length flags (times k fdfa_utf8) (growth_bound (zlen (times k fdfa_utf8))).
Proof.
  intros flags k S. split; [apply times_len|]. rewrite times_len. unfold growth_bound. rewrite (Z.mul_comm 3), Z.mod_mul, Z.div_mul by lia. change (0 =? 0) with true. cbv iota. rewrite Z.add_0_r. now apply times_maps.
Qed.
Lemma refuted_32 : exists src, c_string src /\ zlen src = 715827885 /\ (exists l, utf8 l src /\ 4 * (zlen l + 1) < 2 ^ 31) /\
  forall U flags, mapping_on flags -> opt_std3 flags = false -> wlookup_u8 32 U src flags = Undef /\ lookup_u8 U src flags = Fail IDN2_TOO_BIG_DOMAIN.
Proof.
  exists (times many fdfa_utf8). split; [apply times_string|]. split; [rewrite times_len, many_Z; reflexivity|]. split.
  - exists (repeat fdfa many). split; [apply times_utf8|]. rewrite repeat_len, many_Z. reflexivity.
  - intros U flags M S. split; [now apply wlookup_many|now apply lookup_many].
Qed.
Lemma refuted_arrays : exists l, zlen l = 238609295 /\
  forall U junk flags, mapping_on flags -> opt_std3 flags = false ->
  (forall o, wto_ascii_4i2 32 U junk (Some l) o flags = Undef) /\ (forall a, wto_ascii_4i 32 U junk (Some l) a flags = Undef).
Proof.
  exists (repeat fdfa many). split; [rewrite repeat_len; apply many_Z|]. intros U junk flags M S. split; [intros; now apply w4i2_many|intros; now apply w4i_many].
Qed.
Lemma arrays_32 : forall U junk l flags, zlen l < 238609295 ->
  (forall o, wto_ascii_4i2 32 U junk (Some l) o flags = to_ascii_4i2 U junk (Some l) o flags) /\
  (forall a, wto_ascii_4i 32 U junk (Some l) a flags = to_ascii_4i U junk (Some l) a flags) /\
  (forall arr outlen, wto_unicode_44i 32 junk (Some l) arr outlen flags = to_unicode_44i junk (Some l) arr outlen flags).
Proof.
  intros U junk l flags L. pose proof pow32. split; [intros; apply w4i2_same; lia|]. split; [intros; apply w4i_same; lia|]. intros; apply w44i_same; lia.
Qed.
