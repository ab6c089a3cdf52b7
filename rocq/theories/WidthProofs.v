(** Lookup with sizes of W bits. *)
From Verif Require Import Base PunyBase Uenv DataTypes DataTr46 SpecUtf8 SpecTables SpecLabel SpecLookup Gentr46 Tr46Map Tr46Facts
  Utf8 Utf8Proofs Idna Puny Lookup Api MapProofs ApiProofs Width SpecWidth.

Lemma wlen_spec : forall W flags l n, Forall (fun c => 0 < c) l -> 0 <= n < 2 ^ W -> wtr46_len W flags l n =
  if existsb disallowedb l then Fail IDN2_DISALLOWED else Ok ((n + zlen (uts46_map (opt_transitional flags) (opt_std3 flags) l)) mod 2 ^ W).
Proof.
  intros W flags l. induction l as [|c l IH]; intros n F R; cbn [wtr46_len existsb].
  - unfold uts46_map. cbn [flat_map]. rewrite zlen_nil, Z.add_0_r. f_equal. symmetry. now apply Z.mod_small.
  - inversion F; subst. rewrite len1_spec by lia. unfold disallowedb at 1. assert (c =? 0 = false) as -> by (apply Z.eqb_neq; lia).
    rewrite andb_true_r. destruct (status_eqb (status_of c) Disallowed); cbn [bind orb]; [reflexivity|].
    rewrite IH; auto; [|unfold size; apply Z.mod_pos_bound; lia].
    destruct (existsb disallowedb l); [reflexivity|]. unfold uts46_map. cbn [flat_map]. rewrite zlen_app. f_equal. unfold size.
    rewrite Z.add_mod_idemp_l by lia. f_equal. lia.
Qed.
Lemma mapping_overflow : forall cap flags l tmp, Forall (fun c => 0 <= c) l -> zlen tmp <= cap ->
  cap < zlen tmp + zlen (uts46_map (opt_transitional flags) (opt_std3 flags) l) -> tr46_map cap flags l tmp = Undef.
Proof.
  intros cap flags l. induction l as [|c l IH]; intros tmp F H1 H2; cbn [tr46_map].
  - unfold uts46_map in H2. cbn [flat_map] in H2. rewrite zlen_nil in H2. lia.
  - inversion F; subst. rewrite map1_spec by auto. cbn [bind]. unfold uts46_map in *. cbn [flat_map] in H2. rewrite zlen_app in H2.
    destruct (_ <? _) eqn:E; [reflexivity|]. apply Z.ltb_ge in E. apply IH; auto; rewrite zlen_app; lia.
Qed.
Lemma pow_16 : forall W, 16 <= W -> 65536 <= 2 ^ W.
Proof. intros W H. change 65536 with (2 ^ 16). apply Z.pow_le_mono_r; lia. Qed.
Lemma room_small : forall W n, 16 <= W -> 0 <= n < 16384 -> room W (size W n) = n.
Proof.
  intros W n H R. pose proof (pow_16 W H). unfold room, size. rewrite (Z.mod_small n) by lia. rewrite Z.mod_small by lia. apply Z.div_mul. lia.
Qed.

Lemma disallowed_none : forall l, existsb disallowedb l = false <-> Forall (fun c => status_of c <> Disallowed) l.
Proof.
  intros l. rewrite <- not_true_iff_false, disallowedb_iff. rewrite <- Forall_Exists_neg. reflexivity.
Qed.

(** The mapped length decides. *)
Lemma wtr46_exact : forall W U src flags, 16 <= W -> c_string src -> zlen src + 1 < 2 ^ W ->
  (passes_wrapped W flags src -> wtr46 W U src flags = Undef) /\
  (~ passes_wrapped W flags src -> wtr46 W U src flags = tr46 U src flags).
Proof.
  intros W U src flags H C LS. pose proof (pow_16 W H) as P16. pose proof (c_string_bytes _ C) as B. pose proof (zlen_nonneg _ src) as ZS.
  unfold wtr46, tr46. assert (firstn (Z.to_nat (size W (zlen src + 1))) (src ++ [0]) = src ++ [0]) as ->.
  { apply firstn_all2. unfold size. rewrite Z.mod_small by lia. rewrite app_length. unfold zlen. cbn [length]. lia. }
  rewrite u8_to_u32_nul by auto. destruct (u8_to_u32 src) as [l|] eqn:E; cbn [conv bind].
  2:{ split; [|reflexivity]. intros (n & (l & Hl & _) & _). apply u8_to_u32_complete in Hl. congruence. }
  apply u8_to_u32_iff in E; auto. rewrite removelast_snoc. pose proof (utf8_c_string _ _ E C) as P. pose proof (utf8_scalar _ _ E) as S.
  rewrite wlen_spec by (auto; lia). rewrite len_spec by auto. rewrite !Z.add_0_l.
  destruct (existsb disallowedb l) eqn:D; cbn [bind].
  { split; [|reflexivity]. intros (n & (l' & Hl & D' & _) & _). apply u8_to_u32_complete in Hl. apply u8_to_u32_complete in E.
    assert (l' = l) as -> by congruence. apply disallowed_none in D'. congruence. }
  set (m := uts46_map (opt_transitional flags) (opt_std3 flags) l). pose proof (zlen_nonneg _ m) as ZM. change DOMAIN_MAX with 255.
  assert (U' : forall n, maps_to_length flags src n <-> n = zlen m).
  { intros n. split.
    - intros (l' & Hl & _ & ->). apply u8_to_u32_complete in Hl. apply u8_to_u32_complete in E. assert (l' = l) as -> by congruence. reflexivity.
    - intros ->. exists l. split; [exact E|]. split; [now apply disallowed_none|reflexivity]. }
  pose proof (Z.mod_pos_bound (zlen m) (2 ^ W) ltac:(lia)) as MB.
  split.
  - intros (n & N & G & T). apply U' in N. subst n. destruct (255 <=? _) eqn:L; [apply Z.leb_le in L; lia|].
    rewrite room_small by lia. rewrite mapping_overflow; [reflexivity|now apply scalar_nonneg|rewrite zlen_nil; lia|rewrite zlen_nil; fold m; lia].
  - intros N. destruct (Z_lt_ge_dec (zlen m) (2 ^ W)) as [S1|G].
    + rewrite Z.mod_small by lia. destruct (255 <=? zlen m) eqn:L; [reflexivity|]. apply Z.leb_gt in L. rewrite room_small by lia. reflexivity.
    + assert (255 <= zlen m mod 2 ^ W).
      { destruct (Z_lt_ge_dec (zlen m mod 2 ^ W) 255); [|lia]. exfalso. apply N. exists (zlen m). split; [now apply U'|]. lia. }
      assert (255 <=? zlen m mod 2 ^ W = true) as -> by (apply Z.leb_le; lia). assert (255 <=? zlen m = true) as -> by (apply Z.leb_le; lia). reflexivity.
Qed.
