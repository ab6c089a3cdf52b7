(** C91: domains below others. *)
From Verif Require Import Base Uenv DataTypes SpecNfc SpecLookup SpecUnicode SpecBelow Lookup Api Ucd Below SameName BelowCases.

(** Of two results, whatever the flags and Unicode versions, one is below the other just if it is so displayed. *)
Theorem C91_forms : forall U V, nfc_ok U -> nfc_ok V -> forall a b f g r s n m, c_string a -> zlen a < two64 -> c_string b -> zlen b < two64 ->
  opt_no_roundtrip f = false -> opt_no_roundtrip g = false -> lookup_u8 U a f = Ok r -> lookup_u8 V b g = Ok s ->
  (opt_no_tr46 f = true -> no_upper_ace r) -> (opt_no_tr46 g = true -> no_upper_ace s) ->
  unicode_name r n -> unicode_name s m -> (below r s <-> below n m).
Proof. exact below_forms. Qed.
Print Assumptions C91_forms.

(** In terms of the names given. *)
Theorem C91_names : forall U V, nfc_ok U -> nfc_ok V -> forall a b f g r s, c_string a -> zlen a < two64 -> c_string b -> zlen b < two64 ->
  opt_no_roundtrip f = false -> opt_no_roundtrip g = false -> opt_no_tr46 f = false -> opt_no_tr46 g = false ->
  lookup_u8 U a f = Ok r -> lookup_u8 V b g = Ok s ->
  (below r s <-> exists o q n m, tr46_prepared U f a o /\ tr46_prepared V g b q /\ unicode_name o n /\ unicode_name q m /\ below n m).
Proof. exact below_names. Qed.
Print Assumptions C91_names.

Theorem C91_sources : forall U a b f r s, nfc_ok U -> c_string a -> zlen a < two64 -> below a b -> lookup_u8 U a f = Ok r -> lookup_u8 U b f = Ok s -> below r s.
Proof. exact sources. Qed.
Print Assumptions C91_sources.

(** The domains above a result are results. *)
Theorem C91_parents : forall U, nfc_ok U -> forall src f r, c_string src -> zlen src < two64 -> opt_no_roundtrip f = false -> lookup_u8 U src f = Ok r ->
  forall s, below r s -> lookup_u8 U s f = Ok s.
Proof. exact parents. Qed.
Print Assumptions C91_parents.
Theorem C91_parents_unchecked_refuted : exists src r s, c_string src /\ lookup_u8 ucd src IDN2_NO_ALABEL_ROUNDTRIP = Ok r /\ below r s /\ lookup_u8 ucd s IDN2_NO_ALABEL_ROUNDTRIP <> Ok s.
Proof. exact parents_unchecked. Qed.
Print Assumptions C91_parents_unchecked_refuted.

Example C91_case : nfc_ok ucd /\ c_string [97;227;128;130;195;156] /\ c_string [120;110;45;45;84;68;65] /\
  lookup_u8 ucd [97;227;128;130;195;156] 0 = Ok [97;46;120;110;45;45;116;100;97] /\ lookup_u8 ucd [120;110;45;45;84;68;65] IDN2_TRANSITIONAL = Ok [120;110;45;45;116;100;97] /\
  unicode [97;46;120;110;45;45;116;100;97] = Ok [97;46;252] /\ unicode [120;110;45;45;116;100;97] = Ok [252] /\
  below [97;46;120;110;45;45;116;100;97] [120;110;45;45;116;100;97] /\ below [97;46;252] [252] /\ ~ below [97;227;128;130;195;156] [120;110;45;45;84;68;65].
Proof. exact case_below. Qed.
