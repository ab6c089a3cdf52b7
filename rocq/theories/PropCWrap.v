(** C99: the C text of _idn2_u8_to_u32_nfc and of the functions of lookup.c around
    idn2_lookup_u8, run by the rules of C11. *)
From Coq Require Import String.
From Verif Require Import Base Uenv SpecUtf8 SpecNfc SpecLookup SpecToAscii SpecRefusal Lookup Ucd CostLabel CLang CLookupTop CWrap SpecCPuny SpecCLookup SpecCRegister SpecCWrap LookupExamples ApiExamples CWrapRun CWrapMeet CWrapCases.
Local Open Scope string_scope.
Local Open Scope list_scope.
Local Open Scope Z_scope.

(** * _idn2_u8_to_u32_nfc *)
Theorem C99_nfc_returns : forall U look four from, at_most_fourfold U -> forall nfc s, 4 * zlen s < 9223372036854775808 -> exists r, nfc_text U look four from nfc s r /\ forall r', nfc_text U look four from nfc s r' -> r' = r.
Proof. exact nfc_exists. Qed.
Print Assumptions C99_nfc_returns.
Theorem C99_nfc : forall U look four from, at_most_fourfold U -> forall nfc s q, Forall (fun b => 0 <= b <= 255) s -> 4 * zlen s < 9223372036854775808 ->
  (nfc_text U look four from nfc s (inr q) <-> exists p, utf8 p s /\ ((nfc = 0 \/ qc_yes (ue_ccc U) 0 (visited false p)) /\ q = p \/ nfc <> 0 /\ ~ qc_yes (ue_ccc U) 0 (visited false p) /\ ue_nfc U p = Some q)).
Proof. exact nfc_done. Qed.
Print Assumptions C99_nfc.
Example C99_nfc_case : at_most_fourfold ucd /\ at_most_fourfold broken /\ forall look four from,
  nfc_text ucd look four from 1 [101; 204; 129] (inr [233]) /\ nfc_text ucd look four from 0 [101; 204; 129] (inr [101; 769]) /\ nfc_text ucd look four from 512 [195; 169] (inr [233]).
Proof. exact case_nfc. Qed.
Theorem C99_nfc_code : forall U look four from, at_most_fourfold U -> forall nfc s rc, Forall (fun b => 0 <= b <= 255) s -> 4 * zlen s < 9223372036854775808 ->
  (nfc_text U look four from nfc s (inl rc) <-> (forall p, ~ utf8 p s) /\ rc = IDN2_ENCODING_ERROR \/ exists p, utf8 p s /\ nfc <> 0 /\ ~ qc_yes (ue_ccc U) 0 (visited false p) /\ ue_nfc U p = None /\ rc = IDN2_NFC).
Proof. exact nfc_failed. Qed.
Print Assumptions C99_nfc_code.
Example C99_nfc_code_case : forall look four from, nfc_text ucd look four from 0 [195] (inl IDN2_ENCODING_ERROR) /\ nfc_text broken look four from 1 [101; 204; 129] (inl IDN2_NFC) /\ nfc_text broken look four from 1 [195; 169] (inr [233]).
Proof. exact case_nfc_code. Qed.

(** * The functions around idn2_lookup_u8: [look] is what its text computes (C95, C96).  There is
    such a [look]. *)
Theorem C99_lookup : forall U, nfc_ok U -> lookup_is U (lab_of U) (look_of U).
Proof. exact look_of_is. Qed.
Print Assumptions C99_lookup.
Example C99_lookup_case : label_is ucd (lab_of ucd) /\ lookup_is ucd (lab_of ucd) (look_of ucd) /\ nfc_ok ucd.
Proof. exact case_is. Qed.
(** idn2_to_ascii_4i2: the array for the copy has room for the terminator, ... *)
Theorem C99_4i2_size : forall U look four from n, 0 <= n -> n + 1 < 4611686018427387904 -> text_4i2_size U look four from n (4 * (n + 1)).
Proof. exact size_text. Qed.
Print Assumptions C99_4i2_size.
Example C99_4i2_size_case : forall U look four from, text_4i2_size U look four from 0 4 /\ text_4i2_size U look four from 63 256.
Proof. intros U look four from. split; apply C99_4i2_size; lia. Qed.
(** ... and all elements must have a UTF-8 form, though the name ends at the first zero. *)
Theorem C99_4i2_returns : forall U look four from lab, nfc_ok U -> label_is U lab -> lookup_is U lab look -> forall f l, zlen l < 100000000000000000 -> 0 <= f < 2147483648 -> exists r, text_4i2 U look four from f l r /\ forall r', text_4i2 U look four from f l r' -> r' = r.
Proof. exact i2_exists. Qed.
Print Assumptions C99_4i2_returns.
Theorem C99_4i2 : forall U look four from lab, nfc_ok U -> label_is U lab -> lookup_is U lab look -> forall f l v t, zlen l < 100000000000000000 -> 0 <= f < 2147483648 -> until_zero l v ->
  (text_4i2 U look four from f l (inr t) <-> (exists s, utf8 l s) /\ exists b, utf8 v b /\ accepts U f b t).
Proof. exact i2_accepts. Qed.
Print Assumptions C99_4i2.
Example C99_4i2_case : forall from, text_4i2 ucd (look_of ucd) four_of from 0 [252] (inr xn_tda) /\ text_4i2 ucd (look_of ucd) four_of from 0 [252; 0; 98] (inr xn_tda) /\ until_zero [252; 0; 98] [252] /\ utf8 [252] uml8.
Proof. exact case_4i2. Qed.
Theorem C99_4i2_code : forall U look four from lab, nfc_ok U -> label_is U lab -> lookup_is U lab look -> forall f l v rc, zlen l < 100000000000000000 -> 0 <= f < 2147483648 -> opt_no_tr46 f = false \/ zlen l <= 250000000 -> until_zero l v ->
  (text_4i2 U look four from f l (inl rc) <-> (~ exists s, utf8 l s) /\ rc = IDN2_ENCODING_ERROR \/ (exists s, utf8 l s) /\ exists b, utf8 v b /\ refuses U f b rc).
Proof. exact i2_refuses. Qed.
Print Assumptions C99_4i2_code.
Example C99_4i2_code_case : forall from, text_4i2 ucd (look_of ucd) four_of from 0 [252; 0; 55296] (inl IDN2_ENCODING_ERROR) /\ text_4i2 ucd (look_of ucd) four_of from 0 [97; 45] (inl IDN2_HYPHEN_STARTEND).
Proof. exact case_4i2_code. Qed.
(** idn2_to_ascii_4z *)
Theorem C99_4z_returns : forall U look four from lab, nfc_ok U -> label_is U lab -> lookup_is U lab look -> forall f l, ~ In 0 l -> zlen l < 100000000000000000 -> 0 <= f < 2147483648 -> exists r, text_4z U look four from f l r /\ forall r', text_4z U look four from f l r' -> r' = r.
Proof. exact z_exists. Qed.
Print Assumptions C99_4z_returns.
Theorem C99_4z : forall U look four from lab, nfc_ok U -> label_is U lab -> lookup_is U lab look -> forall f l t, ~ In 0 l -> zlen l < 100000000000000000 -> 0 <= f < 2147483648 -> (text_4z U look four from f l (inr t) <-> exists b, utf8 l b /\ accepts U f b t).
Proof. exact z_accepts. Qed.
Print Assumptions C99_4z.
Theorem C99_4z_code : forall U look four from lab, nfc_ok U -> label_is U lab -> lookup_is U lab look -> forall f l rc, ~ In 0 l -> zlen l < 100000000000000000 -> 0 <= f < 2147483648 -> opt_no_tr46 f = false \/ zlen l <= 250000000 ->
  (text_4z U look four from f l (inl rc) <-> (~ exists b, utf8 l b) /\ rc = IDN2_ENCODING_ERROR \/ exists b, utf8 l b /\ refuses U f b rc).
Proof. exact z_refuses. Qed.
Print Assumptions C99_4z_code.
Example C99_4z_case : forall from, text_4z ucd (look_of ucd) four_of from 0 [252] (inr xn_tda) /\ text_4z ucd (look_of ucd) four_of from 0 [97; 45] (inl IDN2_HYPHEN_STARTEND) /\ text_4z ucd (look_of ucd) four_of from 0 [55296] (inl IDN2_ENCODING_ERROR).
Proof. exact case_4z. Qed.
(** idn2_lookup_ul; [from] is the conversion from the encoding of the locale. *)
Theorem C99_ul_returns : forall U look four from lab, nfc_ok U -> label_is U lab -> lookup_is U lab look -> forall f s, ~ In 0 s -> (forall b, from s = Some b -> c_string b /\ 32 * (zlen b + 1) < two64) -> 0 <= f < 2147483648 ->
  exists r, ul_text U look four from f s r /\ forall r', ul_text U look four from f s r' -> r' = r.
Proof. exact ul_exists. Qed.
Print Assumptions C99_ul_returns.
Theorem C99_ul : forall U look four from lab, nfc_ok U -> label_is U lab -> lookup_is U lab look -> forall f s t, ~ In 0 s -> (forall b, from s = Some b -> c_string b /\ 32 * (zlen b + 1) < two64) -> 0 <= f < 2147483648 ->
  (ul_text U look four from f s (inr t) <-> exists b, from s = Some b /\ accepts U (Z.lor f IDN2_NFC_INPUT) b t).
Proof. exact ul_accepts. Qed.
Print Assumptions C99_ul.
Theorem C99_ul_code : forall U look four from lab, nfc_ok U -> label_is U lab -> lookup_is U lab look -> forall f s rc, ~ In 0 s -> (forall b, from s = Some b -> c_string b /\ 32 * (zlen b + 1) < two64) -> 0 <= f < 2147483648 ->
  opt_no_tr46 f = false \/ (forall b, from s = Some b -> zlen b <= 1000000000) ->
  (ul_text U look four from f s (inl rc) <-> from s = None /\ rc = IDN2_ICONV_FAIL \/ exists b, from s = Some b /\ refuses U (Z.lor f IDN2_NFC_INPUT) b rc).
Proof. exact ul_refuses. Qed.
Print Assumptions C99_ul_code.
Example C99_ul_case : latin1 [252] = Some uml8 /\ ul_text ucd (look_of ucd) four_of latin1 0 [252] (inr xn_tda) /\ ul_text ucd (look_of ucd) four_of latin1 0 [97; 45] (inl IDN2_HYPHEN_STARTEND) /\ ul_text ucd (look_of ucd) four_of (fun _ => None) 0 [252] (inl IDN2_ICONV_FAIL).
Proof. exact case_ul. Qed.
(** idn2_to_ascii_4i; [four] is what the text of idn2_to_ascii_4i2 computes.  At most 63 bytes are
    written, without a terminator. *)
Theorem C99_four : forall U from, nfc_ok U -> forall l f, zlen l < 100000000000000000 -> 0 <= f < 2147483648 -> text_4i2 U (look_of U) (conv_result (look_of U)) from f l (conv_result (look_of U) l f).
Proof. exact four_of_is. Qed.
Print Assumptions C99_four.
Theorem C99_4i : forall U look four from lab, nfc_ok U -> label_is U lab -> lookup_is U lab look -> (forall l f, zlen l < 100000000000000000 -> 0 <= f < 2147483648 -> text_4i2 U look four from f l (four l f)) ->
  forall f l has arr, zlen l < 100000000000000000 -> 0 <= f < 2147483648 -> (has = true -> 63 <= zlen arr) ->
  (forall rc, text_4i2 U look four from f l (inl rc) -> text_4i U look four from f l has arr rc arr) /\
  (forall t, text_4i2 U look four from f l (inr t) -> 63 < zlen t -> text_4i U look four from f l has arr IDN2_TOO_BIG_DOMAIN arr) /\
  (forall t, text_4i2 U look four from f l (inr t) -> zlen t <= 63 -> text_4i U look four from f l has arr 0 (if has then in_front t arr else arr)).
Proof. exact j_both. Qed.
Print Assumptions C99_4i.
Theorem C99_4i_once : forall U look four from f l has arr rc1 a1 rc2 a2, text_4i U look four from f l has arr rc1 a1 -> text_4i U look four from f l has arr rc2 a2 -> rc1 = rc2 /\ a1 = a2.
Proof. exact j_once. Qed.
Print Assumptions C99_4i_once.
Example C99_4i_case : forall from, (forall l f, zlen l < 100000000000000000 -> 0 <= f < 2147483648 -> text_4i2 ucd (look_of ucd) four_of from f l (four_of l f)) /\
  text_4i ucd (look_of ucd) four_of from 0 [252] true (repeat (Some 7) 63) 0 (map Some xn_tda ++ repeat (Some 7) 56) /\
  text_4i ucd (look_of ucd) four_of from 0 [252] false [] 0 [] /\
  text_4i ucd (look_of ucd) four_of from 0 long65 true (repeat None 63) IDN2_TOO_BIG_DOMAIN (repeat None 63) /\
  text_4i ucd (look_of ucd) four_of from 0 [97; 45] true (repeat None 63) IDN2_HYPHEN_STARTEND (repeat None 63).
Proof. exact case_4i. Qed.
