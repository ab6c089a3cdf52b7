(** C100: the C text of the functions of decode.c around idn2_to_unicode_8z4z, run by the rules
    of C11. *)
From Coq Require Import String.
From Verif Require Import Base SpecUtf8 SpecLookup SpecUnicode SpecUniRefusal CLang CUni SpecCPuny SpecCRegister SpecCUnicode SpecCWrap SpecCUni CUnicodeCases CWrapCases CUniTop CUniCases.
Local Open Scope string_scope.
Local Open Scope list_scope.
Local Open Scope Z_scope.

(** The calls can be what the theorems ask of them. *)
Theorem C100_has : forall from to, to_fits to -> exists u4 u8 ul, uni_has u4 u8 ul from to.
Proof. exact have_uni. Qed.
Print Assumptions C100_has.
Example C100_has_case : to_fits to_latin1 /\ forall from, uni_has u4_of u8_of (ul_of to_latin1) from to_latin1.
Proof. exact case_has. Qed.
(** * idn2_to_unicode_4z4z *)
Theorem C100_4z4z_returns : forall u4 u8 ul from to, unicode_is u4 -> forall l, ~ In 0 l -> zlen l < 100000000000000000 -> exists r, text_4z4z u4 u8 ul from to l r /\ forall r', text_4z4z u4 u8 ul from to l r' -> r' = r.
Proof. exact a_exists. Qed.
Print Assumptions C100_4z4z_returns.
Theorem C100_4z4z : forall u4 u8 ul from to, unicode_is u4 -> forall l d, ~ In 0 l -> zlen l < 100000000000000000 -> (text_4z4z u4 u8 ul from to l (inr d) <-> exists b, utf8 l b /\ unicode_name b d).
Proof. exact a_name. Qed.
Print Assumptions C100_4z4z.
Theorem C100_4z4z_code : forall u4 u8 ul from to, unicode_is u4 -> forall l rc, ~ In 0 l -> zlen l < 100000000000000000 ->
  (text_4z4z u4 u8 ul from to l (inl rc) <-> (~ exists b, utf8 l b) /\ rc = IDN2_ENCODING_ERROR \/ exists b, utf8 l b /\ unicode_refused b rc).
Proof. exact a_code. Qed.
Print Assumptions C100_4z4z_code.
Example C100_4z4z_case : unicode_is u4_of /\ forall u8 ul from to, text_4z4z u4_of u8 ul from to buecher_in (inr buecher_u) /\ utf8 buecher_in buecher /\
  text_4z4z u4_of u8 ul from to [97; 55296] (inl IDN2_ENCODING_ERROR) /\ text_4z4z u4_of u8 ul from to (repeat 97 64) (inl IDN2_TOO_BIG_LABEL).
Proof. exact case_a. Qed.
(** * idn2_to_unicode_8z8z *)
Theorem C100_8z8z_returns : forall u4 u8 ul from to, unicode_is u4 -> forall s, c_string s -> zlen s < 4611686018427387904 -> exists r, text_8z8z u4 u8 ul from to s r /\ forall r', text_8z8z u4 u8 ul from to s r' -> r' = r.
Proof. exact b_exists. Qed.
Print Assumptions C100_8z8z_returns.
Theorem C100_8z8z : forall u4 u8 ul from to, unicode_is u4 -> forall s b, c_string s -> zlen s < 4611686018427387904 -> (text_8z8z u4 u8 ul from to s (inr b) <-> exists d, unicode_name s d /\ utf8 d b).
Proof. exact b_name. Qed.
Print Assumptions C100_8z8z.
Theorem C100_8z8z_code : forall u4 u8 ul from to, unicode_is u4 -> forall s rc, c_string s -> zlen s < 4611686018427387904 ->
  (text_8z8z u4 u8 ul from to s (inl rc) <-> unicode_refused s rc \/ exists d, unicode_name s d /\ (~ exists b, utf8 d b) /\ rc = IDN2_ENCODING_ERROR).
Proof. exact b_code. Qed.
Print Assumptions C100_8z8z_code.
Example C100_8z8z_case : forall u8 ul from to, text_8z8z u4_of u8 ul from to buecher (inr buecher_8) /\ utf8 buecher_u buecher_8 /\
  text_8z8z u4_of u8 ul from to stray (inl IDN2_ENCODING_ERROR) /\ unicode_name stray [56320] /\ text_8z8z u4_of u8 ul from to (repeat 97 64) (inl IDN2_TOO_BIG_LABEL).
Proof. exact case_b. Qed.
(** * idn2_to_unicode_8zlz *)
Theorem C100_8zlz_returns : forall u4 u8 ul from to, to_fits to -> uni_has u4 u8 ul from to -> forall s, c_string s -> zlen s < 4611686018427387904 -> exists r, text_8zlz u4 u8 ul from to s r /\ forall r', text_8zlz u4 u8 ul from to s r' -> r' = r.
Proof. exact top_8zlz_returns. Qed.
Print Assumptions C100_8zlz_returns.
Theorem C100_8zlz : forall u4 u8 ul from to, to_fits to -> uni_has u4 u8 ul from to -> forall s x, c_string s -> zlen s < 4611686018427387904 ->
  (text_8zlz u4 u8 ul from to s (inr x) <-> exists d b, unicode_name s d /\ utf8 d b /\ to b = Some x).
Proof. exact top_8zlz. Qed.
Print Assumptions C100_8zlz.
Theorem C100_8zlz_code : forall u4 u8 ul from to, to_fits to -> uni_has u4 u8 ul from to -> forall s rc, c_string s -> zlen s < 4611686018427387904 ->
  (text_8zlz u4 u8 ul from to s (inl rc) <-> unicode_refused s rc \/ exists d, unicode_name s d /\ (forall b, utf8 d b -> to b = None) /\ rc = IDN2_ENCODING_ERROR).
Proof. exact top_8zlz_code. Qed.
Print Assumptions C100_8zlz_code.
Example C100_8zlz_case : let P := fun s r => text_8zlz u4_of u8_of (ul_of to_latin1) latin1 to_latin1 s r in
  P buecher (inr buecher_u) /\ P [206; 177] (inl IDN2_ENCODING_ERROR) /\ P stray (inl IDN2_ENCODING_ERROR) /\ P (repeat 97 64) (inl IDN2_TOO_BIG_LABEL).
Proof. exact case_c. Qed.
(** * idn2_to_unicode_lzlz *)
Theorem C100_lzlz_returns : forall u4 u8 ul from to, to_fits to -> uni_has u4 u8 ul from to -> forall s, ~ In 0 s -> (forall c, from s = Some c -> c_string c /\ zlen c < 4611686018427387904) ->
  exists r, text_lzlz u4 u8 ul from to s r /\ forall r', text_lzlz u4 u8 ul from to s r' -> r' = r.
Proof. exact top_lzlz_returns. Qed.
Print Assumptions C100_lzlz_returns.
Theorem C100_lzlz : forall u4 u8 ul from to, to_fits to -> uni_has u4 u8 ul from to -> forall s x, ~ In 0 s -> (forall c, from s = Some c -> c_string c /\ zlen c < 4611686018427387904) ->
  (text_lzlz u4 u8 ul from to s (inr x) <-> exists c d b, from s = Some c /\ unicode_name c d /\ utf8 d b /\ to b = Some x).
Proof. exact top_lzlz. Qed.
Print Assumptions C100_lzlz.
Theorem C100_lzlz_code : forall u4 u8 ul from to, to_fits to -> uni_has u4 u8 ul from to -> forall s rc, ~ In 0 s -> (forall c, from s = Some c -> c_string c /\ zlen c < 4611686018427387904) ->
  (text_lzlz u4 u8 ul from to s (inl rc) <-> from s = None /\ rc = IDN2_ICONV_FAIL \/
    exists c, from s = Some c /\ (unicode_refused c rc \/ exists d, unicode_name c d /\ (forall b, utf8 d b -> to b = None) /\ rc = IDN2_ENCODING_ERROR)).
Proof. exact top_lzlz_code. Qed.
Print Assumptions C100_lzlz_code.
Example C100_lzlz_case : let P := fun from s r => text_lzlz u4_of u8_of (ul_of to_latin1) from to_latin1 s r in
  P latin1 buecher_in (inr buecher_u) /\ latin1 buecher_in = Some buecher /\ P (fun _ => None) [97] (inl IDN2_ICONV_FAIL) /\ P latin1 (repeat 97 64) (inl IDN2_TOO_BIG_LABEL).
Proof. exact case_d. Qed.
