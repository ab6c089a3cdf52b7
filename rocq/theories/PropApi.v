(** Properties C19-C22, C47, C54: pointer arguments and the ToASCII entry points. *)
From Verif Require Import Base Uenv DataTypes SpecUtf8 SpecNfc SpecLookup Lookup Api SpecUnicode SpecApi ApiProofs Ucd LookupExamples ApiExamples.

(** C19. *)
Theorem C19_null_input : forall U L j F, In F (functions_null U L j) -> null_input F.
Proof. exact null_input_all. Qed.
Print Assumptions C19_null_input.
Theorem C19_null_output : forall U L j F, In F (functions U L j) -> null_output F.
Proof. exact null_output_all. Qed.
Print Assumptions C19_null_output.
Theorem C19_4i_null : forall U j a f, a <> [] -> to_ascii_4i U j None None f = Ok (IDN2_OK, None) /\
  to_ascii_4i U j None (Some a) f = Ok (IDN2_OK, Some (0 :: tl a)).
Proof. exact ascii_4i_null. Qed.
Print Assumptions C19_4i_null.
Theorem C19_4i_null_output : forall U j l a f rc c, to_ascii_4i U j (Some l) (Some a) f = Ok (rc, c) -> to_ascii_4i U j (Some l) None f = Ok (rc, None).
Proof. exact ascii_4i_noout. Qed.
Print Assumptions C19_4i_null_output.
Theorem C19_44i_null : forall j arr n f, to_unicode_44i j None arr (Some n) f = Ok (IDN2_OK, arr, Some 0) /\ to_unicode_44i j None arr None f = Ok (IDN2_OK, arr, None).
Proof. exact unicode_44i_null. Qed.
Print Assumptions C19_44i_null.
Theorem C19_44i_null_output : forall j l a n f rc arr' n', to_unicode_44i j (Some l) (Some a) (Some n) f = Ok (rc, arr', n') ->
  to_unicode_44i j (Some l) None (Some n) f = Ok (rc, None, n').
Proof. exact unicode_44i_noout. Qed.
Print Assumptions C19_44i_null_output.
Example C19_case : length (functions ucd latin1 None) = 11%nat /\ to_ascii_8z ucd (Some [97]) None 0 = Ok (IDN2_OK, None).
Proof. vm_compute. auto. Qed.

(** C20. *)
Theorem C20_8z8z_null : forall L j o f, to_unicode_8z8z j None o f = Ok (IDN2_OK, o) /\ to_unicode_8zlz L j None o f = Ok (IDN2_OK, o).
Proof. exact null_8z8z. Qed.
Print Assumptions C20_8z8z_null.
Theorem C20_null_input_refuted : ~ null_input (to_unicode_8z8z None) /\ forall L, ~ null_input (to_unicode_8zlz L None).
Proof. exact null_8z8z_bad. Qed.
Print Assumptions C20_null_input_refuted.
Example C20_case : to_unicode_8z8z None None (Some (Some [1])) 0 = Ok (IDN2_OK, Some (Some [1])) /\
  to_unicode_8z4z None (Some (Some [1])) 0 = Ok (IDN2_OK, Some None).
Proof. auto. Qed.

(** C21. *)
Theorem C21_agree : forall U j l s o f, u32_string l -> utf8 l s ->
  to_ascii_8z U (Some s) o f = idn2_lookup_u8 U (Some s) o f /\
  to_ascii_4z U (Some l) o f = idn2_lookup_u8 U (Some s) o f /\ to_ascii_4i2 U j (Some l) o f = idn2_lookup_u8 U (Some s) o f.
Proof. exact ascii_agree. Qed.
Print Assumptions C21_agree.
Theorem C21_unencodable : forall U j l o f, u32_string l -> ~ (exists s, utf8 l s) ->
  to_ascii_4z U (Some l) o f = Ok (IDN2_ENCODING_ERROR, o) /\ to_ascii_4i2 U j (Some l) o f = Ok (IDN2_ENCODING_ERROR, o).
Proof. exact ascii_bad. Qed.
Print Assumptions C21_unencodable.
Theorem C21_embedded_zero : forall U j l rest s t o f, u32_string l -> utf8 l s -> utf8 rest t ->
  to_ascii_4i2 U j (Some (l ++ 0 :: rest)) o f = idn2_lookup_u8 U (Some s) o f.
Proof. exact ascii_embedded. Qed.
Print Assumptions C21_embedded_zero.
Theorem C21_locale : forall U L x s o f, from_locale L x = Some s ->
  to_ascii_lz U L (Some x) o f = idn2_lookup_ul U L (Some x) o f /\
  idn2_lookup_ul U L (Some x) o f = idn2_lookup_u8 U (Some s) o (Z.lor f IDN2_NFC_INPUT).
Proof. exact ascii_locale. Qed.
Print Assumptions C21_locale.
Theorem C21_locale_unconvertible : forall U L x o f, from_locale L x = None -> idn2_lookup_ul U L (Some x) o f = Ok (IDN2_ICONV_FAIL, o).
Proof. exact ascii_locale_bad. Qed.
Print Assumptions C21_locale_unconvertible.
Theorem C21_locale_8z : forall U L x s o f, nfc_ok U -> c_string s -> opt_no_tr46 f = false -> from_locale L x = Some s ->
  to_ascii_lz U L (Some x) o f = to_ascii_8z U (Some s) o f.
Proof. exact ascii_locale_utf8. Qed.
Print Assumptions C21_locale_8z.
Example C21_case : u32_string buecher4 /\ utf8 buecher4 buecher /\
  to_ascii_4z ucd (Some buecher4) (Some None) 0 = Ok (0, Some (Some xn_buecher)) /\
  to_ascii_4i2 ucd (Some [7]) (Some buecher4) (Some None) 0 = Ok (0, Some (Some xn_buecher)) /\
  to_ascii_lz ucd latin1 (Some buecher4) (Some None) 0 = Ok (0, Some (Some xn_buecher)).
Proof. exact case_agree. Qed.
Example C21_case_unencodable : u32_string [97;55296] /\ ~ (exists s, utf8 [97;55296] s).
Proof. exact case_bad. Qed.
Example C21_case_locale : from_locale latin1 buecher4 = Some buecher /\ from_locale latin1 [0x110000] = None.
Proof. exact no_locale_latin1. Qed.

(** C22. *)
Theorem C22_4i : forall U j l s f r a, nfc_ok U -> u32_string l -> utf8 l s -> zlen s < two64 -> lookup_u8 U s f = Ok r -> 63 <= zlen a ->
  to_ascii_4i U j (Some l) (Some a) f =
    if zlen r <=? 63 then Ok (IDN2_OK, Some (r ++ skipn (length r) a)) else Ok (IDN2_TOO_BIG_DOMAIN, Some a).
Proof. exact ascii_4i. Qed.
Print Assumptions C22_4i.
Theorem C22_4i_fail : forall U j l s f rc o, u32_string l -> utf8 l s -> lookup_u8 U s f = Fail rc -> to_ascii_4i U j (Some l) o f = Ok (rc, o).
Proof. exact ascii_4i_fail. Qed.
Print Assumptions C22_4i_fail.
Theorem C22_4i_unencodable : forall U j l f o, u32_string l -> ~ (exists s, utf8 l s) -> to_ascii_4i U j (Some l) o f = Ok (IDN2_ENCODING_ERROR, o).
Proof. exact ascii_4i_bad. Qed.
Print Assumptions C22_4i_unencodable.
Theorem C22_4i_safe : forall U j l a f, nfc_ok U -> zlen l < 4611686018427387904 -> 63 <= zlen a -> safe (to_ascii_4i U j (Some l) (Some a) f).
Proof. exact ascii_4i_safe. Qed.
Print Assumptions C22_4i_safe.
Theorem C22_4i_terminated_refuted : exists l s a r a', nfc_ok ucd /\ u32_string l /\ utf8 l s /\ zlen a = 64 /\ lookup_u8 ucd s 0 = Ok r /\
  to_ascii_4i ucd None (Some l) (Some a) 0 = Ok (IDN2_OK, Some a') /\ ~ In 0 a'.
Proof. exact no_terminator. Qed.
Print Assumptions C22_4i_terminated_refuted.
Example C22_case : 63 <= zlen (repeat 1 64) /\
  to_ascii_4i ucd None (Some [66;252]) (Some (repeat 1 64)) 0 = Ok (0, Some ([120;110;45;45;98;45;101;104;97] ++ repeat 1 55)).
Proof. exact case_4i. Qed.

(** C47. *)
Theorem C47_untouched : forall U L j F, In F (functions U L j) -> untouched_on_error F.
Proof. exact untouched_all. Qed.
Print Assumptions C47_untouched.
Theorem C47_delivers : forall U L j F, In F (functions U L j) -> delivers F.
Proof. exact delivers_all. Qed.
Print Assumptions C47_delivers.
Theorem C47_4i_untouched : forall U j i o f rc c, to_ascii_4i U j i o f = Ok (rc, c) -> rc <> IDN2_OK -> c = o.
Proof. exact ascii_4i_untouched. Qed.
Print Assumptions C47_4i_untouched.
Theorem C47_44i_untouched : forall j i arr n f rc arr' n', to_unicode_44i j i arr n f = Ok (rc, arr', n') -> rc <> IDN2_OK -> arr' = arr /\ n' = n.
Proof. exact unicode_44i_untouched. Qed.
Print Assumptions C47_44i_untouched.
Example C47_case : to_ascii_8z ucd (Some [45;195;188]) (Some (Some [1])) 0 = Ok (IDN2_HYPHEN_STARTEND, Some (Some [1])).
Proof. vm_compute. reflexivity. Qed.

(** C54: [j1] and [j2] are what the local pointer variables hold at entry. *)
Theorem C54_locals_set : forall U L j1 j2 i o f, to_ascii_4i2 U j1 i o f = to_ascii_4i2 U j2 i o f /\
  to_unicode_4z4z j1 i o f = to_unicode_4z4z j2 i o f /\ to_unicode_8z8z j1 i o f = to_unicode_8z8z j2 i o f /\
  to_unicode_8zlz L j1 i o f = to_unicode_8zlz L j2 i o f /\ to_unicode_lzlz L j1 i o f = to_unicode_lzlz L j2 i o f.
Proof. exact locals_set. Qed.
Print Assumptions C54_locals_set.
Example C54_case : to_unicode_8z8z (Some [1]) (Some [195]) (Some None) 0 = Ok (IDN2_ENCODING_ERROR, Some None).
Proof. vm_compute. reflexivity. Qed.
