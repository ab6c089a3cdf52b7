(** Property C82: sizes of 32 and 64 bits. *)
From Verif Require Import Base Uenv SpecUtf8 SpecTables SpecLabel SpecLookup Utf8 Idna Lookup Api Width SpecWidth WidthProofs WidthTop.

(** With sizes of [W] bits lookup does what it does with unbounded sizes,
    except for names whose mapped length passes the limit of 255 only because
    it has wrapped round: for these it writes behind a buffer. *)
Theorem C82_wraps : forall W U src flags, 16 <= W -> c_string src -> zlen src + 1 < 2 ^ W -> mapping_on flags -> passes_wrapped W flags src ->
  wlookup_u8 W U src flags = Undef.
Proof. exact wlookup_wraps. Qed.
Print Assumptions C82_wraps.
Theorem C82_same : forall W U src flags, 16 <= W -> c_string src -> zlen src + 1 < 2 ^ W -> (mapping_on flags -> ~ passes_wrapped W flags src) ->
  wlookup_u8 W U src flags = lookup_u8 U src flags.
Proof. exact wlookup_same. Qed.
Print Assumptions C82_same.

(** How much UTS 46 can lengthen a name, and that it does. *)
Theorem C82_growth : forall flags src n, maps_to_length flags src n -> n <= growth_bound (zlen src).
Proof. exact growth_top. Qed.
Print Assumptions C82_growth.
Theorem C82_growth_reached : forall flags k, opt_std3 flags = false ->
  zlen (times k fdfa_utf8) = 3 * Z.of_nat k /\ maps_to_length flags (times k fdfa_utf8) (growth_bound (zlen (times k fdfa_utf8))).
Proof. exact growth_reached. Qed.
Print Assumptions C82_growth_reached.

(** 64 bits: nothing wraps for any string that fits a memory. *)
Theorem C82_64 : forall U src flags, c_string src -> zlen src < 2 ^ 61 -> wlookup_u8 64 U src flags = lookup_u8 U src flags.
Proof. exact wlookup_64. Qed.
Print Assumptions C82_64.
(** 32 bits: nothing wraps below 715827885 bytes. *)
Theorem C82_32 : forall U src flags, c_string src -> zlen src < 715827885 -> wlookup_u8 32 U src flags = lookup_u8 U src flags.
Proof. exact wlookup_32. Qed.
Print Assumptions C82_32.
(** At 715827885 bytes it does, though no object has 2^31 bytes. *)
Theorem C82_32_refuted : exists src, c_string src /\ zlen src = 715827885 /\ (exists l, utf8 l src /\ 4 * (zlen l + 1) < 2 ^ 31) /\
  forall U flags, mapping_on flags -> opt_std3 flags = false -> wlookup_u8 32 U src flags = Undef /\ lookup_u8 U src flags = Fail IDN2_TOO_BIG_DOMAIN.
Proof. exact refuted_32. Qed.
Print Assumptions C82_32_refuted.
(** With the STD3 rules, or without UTS 46, nothing wraps for any string that
    an implementation of C has (objects have fewer than 2^(W-1) bytes). *)
Theorem C82_std3 : forall W U src flags, 16 <= W -> c_string src -> zlen src < 2 ^ (W - 1) -> opt_std3 flags = true ->
  wlookup_u8 W U src flags = lookup_u8 U src flags.
Proof. exact wlookup_std3. Qed.
Print Assumptions C82_std3.
Theorem C82_no_tr46 : forall W U src flags, opt_no_tr46 flags = true -> wlookup_u8 W U src flags = lookup_u8 U src flags.
Proof. exact wlookup_no_tr46. Qed.
Print Assumptions C82_no_tr46.

(** The functions on arrays of code points. *)
Theorem C82_arrays : forall U junk l flags, zlen l < 238609295 ->
  (forall o, wto_ascii_4i2 32 U junk (Some l) o flags = to_ascii_4i2 U junk (Some l) o flags) /\
  (forall a, wto_ascii_4i 32 U junk (Some l) a flags = to_ascii_4i U junk (Some l) a flags) /\
  (forall arr outlen, wto_unicode_44i 32 junk (Some l) arr outlen flags = to_unicode_44i junk (Some l) arr outlen flags).
Proof. exact arrays_32. Qed.
Print Assumptions C82_arrays.
Theorem C82_arrays_refuted : exists l, zlen l = 238609295 /\
  forall U junk flags, mapping_on flags -> opt_std3 flags = false ->
  (forall o, wto_ascii_4i2 32 U junk (Some l) o flags = Undef) /\ (forall a, wto_ascii_4i 32 U junk (Some l) a flags = Undef).
Proof. exact refuted_arrays. Qed.
Print Assumptions C82_arrays_refuted.
Theorem C82_44i : forall W junk l arr outlen flags, 16 <= W -> 4 * (zlen l + 1) < 2 ^ W ->
  wto_unicode_44i W junk (Some l) arr outlen flags = to_unicode_44i junk (Some l) arr outlen flags.
Proof. exact w44i_same. Qed.
Print Assumptions C82_44i.
Theorem C82_44i_limit : forall W junk l arr outlen flags, 16 <= W -> 4 * (zlen l + 1) = 2 ^ W -> wto_unicode_44i W junk (Some l) arr outlen flags = Undef.
Proof. exact w44i_over. Qed.
Print Assumptions C82_44i_limit.

Example C82_case : mapping_on 0 /\ opt_std3 0 = false.
Proof. exact default_on. Qed.
Example C82_case_growth : growth_bound 3 = 18 /\ growth_bound 715827884 = 2 ^ 32 - 1 /\ growth_bound 715827885 = 2 ^ 32 + 14.
Proof. vm_compute. auto. Qed.
