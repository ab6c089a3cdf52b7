(** Properties C11, C23-C27: ToUnicode. *)
From Verif Require Import Base Uenv DataTypes SpecUtf8 SpecPuny SpecTables SpecNfc SpecLookup Lookup Api SpecUnicode SpecApi DecodeProofs RoundTrip
  ApiProofs Ucd LookupExamples ApiExamples.

(** C11: after ToASCII, ToUnicode succeeds ... *)
Theorem C11_unicode_of_result : forall U src f r, nfc_ok U -> c_string src -> zlen src < two64 -> opt_no_roundtrip f = false ->
  lookup_u8 U src f = Ok r -> (opt_no_tr46 f = true -> no_upper_ace r) -> exists n, unicode r = Ok n /\ Forall scalar n.
Proof. exact unicode_of_result. Qed.
Print Assumptions C11_unicode_of_result.

(** ... with the Unicode form of the mapped and normalised name ... *)
Theorem C11_unicode_of_prepared : forall U src f r n, nfc_ok U -> c_string src -> zlen src < two64 ->
  opt_no_roundtrip f = false -> opt_no_tr46 f = false ->
  lookup_u8 U src f = Ok r -> unicode r = Ok n -> exists o, tr46_prepared U f src o /\ unicode o = Ok n.
Proof. exact unicode_of_prepared. Qed.
Print Assumptions C11_unicode_of_prepared.

(** ... and ToASCII of that is the same again, ... *)
Theorem C11_and_back : forall U src f r n b, nfc_ok U -> c_string src -> zlen src < two64 -> opt_no_roundtrip f = false ->
  lookup_u8 U src f = Ok r -> (opt_no_tr46 f = true -> no_upper_ace r) -> unicode r = Ok n -> stable f n -> utf8 n b ->
  lookup_u8 U b f = Ok r.
Proof. exact lookup_back. Qed.
Print Assumptions C11_and_back.
Example C11_case : nfc_ok ucd /\ c_string buecher /\ lookup_u8 ucd buecher 0 = Ok xn_buecher /\
  unicode xn_buecher = Ok [98;252;99;104;101;114;46;101;120] /\ utf8 [98;252;99;104;101;114;46;101;120] [98;195;188;99;104;101;114;46;101;120] /\
  stable 0 [98;252;99;104;101;114;46;101;120].
Proof. exact case_roundtrip. Qed.

(** ... but not without each of the restrictions. *)
Theorem C11_back_transitional_refuted : exists src f r n b r', nfc_ok ucd /\ c_string src /\ opt_no_roundtrip f = false /\ opt_transitional f = true /\
  lookup_u8 ucd src f = Ok r /\ unicode r = Ok n /\ utf8 n b /\ lookup_u8 ucd b f = Ok r' /\ r' <> r.
Proof. exact back_transitional. Qed.
Print Assumptions C11_back_transitional_refuted.
Theorem C11_back_std3_mapped_refuted : exists src f r n b r', nfc_ok ucd /\ c_string src /\ opt_no_roundtrip f = false /\ opt_transitional f = false /\
  opt_std3 f = false /\ lookup_u8 ucd src f = Ok r /\ unicode r = Ok n /\ utf8 n b /\ lookup_u8 ucd b f = Ok r' /\ r' <> r.
Proof. exact back_std3. Qed.
Print Assumptions C11_back_std3_mapped_refuted.
Theorem C11_upper_ace_refuted : exists src f r, nfc_ok ucd /\ c_string src /\ opt_no_roundtrip f = false /\ opt_no_tr46 f = true /\
  lookup_u8 ucd src f = Ok r /\ unicode r = Fail IDN2_PUNYCODE_BAD_INPUT.
Proof. exact upper_ace. Qed.
Print Assumptions C11_upper_ace_refuted.

(** C23: exactly which names are accepted, with which result. *)
Theorem C23_labelwise : forall s r q f, c_string s -> zlen s < two64 ->
  (to_unicode_8z4z (Some s) (Some q) f = Ok (IDN2_OK, Some (Some r)) <-> unicode_name s r).
Proof. exact u8z4z_iff. Qed.
Print Assumptions C23_labelwise.
Example C23_case : c_string muen /\ unicode muen = Ok [109;252;110;99;104;101;110;46;252;46].
Proof. exact case_unicode. Qed.

(** C24. *)
Theorem C24_safe_bounded : forall s o f, c_string s -> zlen s < two64 ->
  match to_unicode_8z4z (Some s) o f with
  | Ok (rc, o') => (rc = IDN2_OK /\ exists r, zlen r <= 255 /\ o' = received o r) \/ (In rc unicode_errors /\ o' = o)
  | _ => False
  end.
Proof. exact u8z4z_codes. Qed.
Print Assumptions C24_safe_bounded.
Theorem C24_documented_codes_refuted : exists s rc, c_string s /\ unicode s = Fail rc /\ ~ In rc unicode_errors_documented.
Proof. exact undocumented. Qed.
Print Assumptions C24_documented_codes_refuted.
Example C24_case : unicode (repeat 97 64) = Fail IDN2_TOO_BIG_LABEL /\
  unicode (repeat 97 63 ++ 46 :: repeat 97 63 ++ 46 :: repeat 97 63 ++ 46 :: repeat 97 63) =
    Ok (repeat 97 63 ++ 46 :: repeat 97 63 ++ 46 :: repeat 97 63 ++ 46 :: repeat 97 63) /\
  unicode (repeat 97 63 ++ 46 :: repeat 97 63 ++ 46 :: repeat 97 63 ++ 46 :: repeat 97 63 ++ [46]) = Fail IDN2_TOO_BIG_DOMAIN.
Proof. exact case_long. Qed.

(** C25. *)
Theorem C25_44i : forall j l s f a n, u32_string l -> utf8 l s -> zlen s < two64 -> 0 <= n <= zlen a ->
  match unicode s with
  | Ok r => let k := Z.to_nat (Z.min (zlen r) n) in
            to_unicode_44i j (Some l) (Some a) (Some n) f = Ok (IDN2_OK, Some (firstn k r ++ skipn k a), Some (zlen r))
  | Fail rc => to_unicode_44i j (Some l) (Some a) (Some n) f = Ok (rc, Some a, Some n)
  | _ => False
  end.
Proof. exact unicode_44i. Qed.
Print Assumptions C25_44i.
Theorem C25_44i_safe : forall j l arr n f, zlen l < 4611686018427387904 ->
  match arr, n with Some a, Some n => 0 <= n <= zlen a | _, _ => True end -> safe (to_unicode_44i j (Some l) arr n f).
Proof. exact unicode_44i_safe. Qed.
Print Assumptions C25_44i_safe.
Theorem C25_44i_embedded_zero : forall j l rest arr n f, ~ In 0 l ->
  to_unicode_44i j (Some (l ++ 0 :: rest)) arr n f = to_unicode_44i j (Some l) arr n f.
Proof. exact unicode_44i_embedded. Qed.
Print Assumptions C25_44i_embedded_zero.
Theorem C25_truncation_silent : exists l s a n r, u32_string l /\ utf8 l s /\ 0 <= n <= zlen a /\ unicode s = Ok r /\
  to_unicode_44i None (Some l) (Some a) (Some n) 0 = Ok (IDN2_OK, Some (firstn 1 r), Some (zlen r)) /\ n < zlen r.
Proof. exact truncation. Qed.
Print Assumptions C25_truncation_silent.
Example C25_case : u32_string [120;110;45;45;116;100;97] /\
  to_unicode_44i None (Some [120;110;45;45;116;100;97]) (Some [1;2;3]) (Some 3) 0 = Ok (0, Some [252;2;3], Some 1) /\
  to_unicode_44i None (Some [97;98;99;100]) (Some [1;2;3]) (Some 2) 0 = Ok (0, Some [97;98;3], Some 4).
Proof. exact case_44i. Qed.

(** C26. *)
Theorem C26_4z4z : forall j l s o f, u32_string l -> utf8 l s -> to_unicode_4z4z j (Some l) o f = to_unicode_8z4z (Some s) o f.
Proof. exact unicode_4z4z. Qed.
Print Assumptions C26_4z4z.
Theorem C26_4z4z_unencodable : forall j l o f, u32_string l -> ~ (exists s, utf8 l s) -> to_unicode_4z4z j (Some l) o f = Ok (IDN2_ENCODING_ERROR, o).
Proof. exact unicode_4z4z_bad. Qed.
Print Assumptions C26_4z4z_unencodable.
Theorem C26_8z8z : forall j s o f, c_string s -> zlen s < two64 ->
  match unicode s with
  | Ok r => (forall b, utf8 r b -> to_unicode_8z8z j (Some s) o f = Ok (IDN2_OK, received o b)) /\
            (~ (exists b, utf8 r b) -> to_unicode_8z8z j (Some s) o f = Ok (IDN2_ENCODING_ERROR, o))
  | Fail rc => to_unicode_8z8z j (Some s) o f = Ok (rc, o)
  | _ => False
  end.
Proof. exact unicode_8z8z. Qed.
Print Assumptions C26_8z8z.
Theorem C26_8zlz : forall L j s o f b, to_unicode_8z8z j (Some s) (Some None) f = Ok (IDN2_OK, Some (Some b)) ->
  to_unicode_8zlz L j (Some s) o f = match to_locale L b with Some x => Ok (IDN2_OK, received o x) | None => Ok (IDN2_ENCODING_ERROR, o) end.
Proof. exact unicode_8zlz. Qed.
Print Assumptions C26_8zlz.
Theorem C26_8zlz_fail : forall L j s o f rc c, to_unicode_8z8z j (Some s) c f = Ok (rc, c) -> rc <> IDN2_OK -> to_unicode_8zlz L j (Some s) o f = Ok (rc, o).
Proof. exact unicode_8zlz_fail. Qed.
Print Assumptions C26_8zlz_fail.
Theorem C26_lzlz : forall L j x o f, to_unicode_lzlz L j (Some x) o f =
  match from_locale L x with Some s => to_unicode_8zlz L j (Some s) o f | None => Ok (IDN2_ICONV_FAIL, o) end.
Proof. exact unicode_lzlz. Qed.
Print Assumptions C26_lzlz.
Theorem C26_all_encodable_refuted : exists s r, c_string s /\ unicode s = Ok r /\ ~ (exists b, utf8 r b) /\
  to_unicode_8z4z (Some s) (Some None) 0 = Ok (IDN2_OK, Some (Some r)) /\
  to_unicode_8z8z None (Some s) (Some None) 0 = Ok (IDN2_ENCODING_ERROR, Some None).
Proof. exact surrogate. Qed.
Print Assumptions C26_all_encodable_refuted.
Example C26_case : to_unicode_8z8z None (Some muen) (Some None) 0 = Ok (0, Some (Some [109;195;188;110;99;104;101;110;46;195;188;46])) /\
  to_unicode_8zlz latin1 None (Some muen) (Some None) 0 = Ok (0, Some (Some [109;252;110;99;104;101;110;46;252;46])) /\
  to_unicode_4z4z None (Some [88;110;45;45;109;110;99;104;101;110;45;51;121;97;46;252;46]) (Some None) 0 = Ok (0, Some (Some [109;252;110;99;104;101;110;46;252;46])).
Proof. exact case_8z8z. Qed.

(** C27. *)
Theorem C27_idempotent_refuted : exists s r b, c_string s /\ unicode s = Ok r /\ utf8 r b /\ unicode b = Fail IDN2_PUNYCODE_BAD_INPUT.
Proof. exact not_idempotent. Qed.
Print Assumptions C27_idempotent_refuted.
Theorem C27_injective_refuted : exists s1 s2 r, s1 <> s2 /\ map lower s1 = s1 /\ map lower s2 = s2 /\ unicode s1 = Ok r /\ unicode s2 = Ok r.
Proof. exact not_injective. Qed.
Print Assumptions C27_injective_refuted.
Theorem C27_idempotent_without_ace : forall s r b, c_string s -> zlen s < two64 -> unicode s = Ok r -> utf8 r b ->
  (forall rs, dotted rs r -> Forall (fun l => ~ exists t, ace_label l t) rs) -> unicode b = Ok r.
Proof. exact unicode_stable. Qed.
Print Assumptions C27_idempotent_without_ace.
Example C27_case : unicode [109;195;188;46] = Ok [109;252;46].
Proof. vm_compute. reflexivity. Qed.
