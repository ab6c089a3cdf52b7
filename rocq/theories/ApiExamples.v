(** Concrete cases for PropApi.v and PropUnicode.v. *)
From Verif Require Import Base Uenv DataTypes SpecUtf8 SpecPuny SpecTables SpecNfc SpecLookup Utf8 Utf8Proofs Puny Lookup MapProofs
  LookupIdem Ucd UcdProofs LookupExamples Api SpecUnicode SpecApi DecodeProofs RoundTrip.
Transparent status_of mapping_of.

Definition latin1_from (s : list Z) : option (list Z) := u32_to_u8 s.
Definition latin1_to (s : list Z) : option (list Z) :=
  match u8_to_u32 s with Some l => if forallb (fun c => c <? 256) l then Some l else None | None => None end.
(** A locale with the encoding ISO 8859-1. *)
Definition latin1 : locale := Locale latin1_from latin1_to.

Definition buecher4 : list Z := [66;252;99;104;101;114;46;101;120].
Lemma buecher_utf8 : utf8 buecher4 buecher.
Proof. apply u32_to_u8_iff. reflexivity. Qed.
Lemma case_agree : u32_string buecher4 /\ utf8 buecher4 buecher /\
  to_ascii_4z ucd (Some buecher4) (Some None) 0 = Ok (0, Some (Some xn_buecher)) /\
  to_ascii_4i2 ucd (Some [7]) (Some buecher4) (Some None) 0 = Ok (0, Some (Some xn_buecher)) /\
  to_ascii_lz ucd latin1 (Some buecher4) (Some None) 0 = Ok (0, Some (Some xn_buecher)).
Proof. split; [unfold u32_string, buecher4; in_range_list|]. split; [exact buecher_utf8|]. vm_compute. auto. Qed.
Lemma case_bad : u32_string [97;55296] /\ ~ (exists s, utf8 [97;55296] s).
Proof.
  split; [unfold u32_string; in_range_list|]. intros (s & H). apply u32_to_u8_iff in H. discriminate.
Qed.
Lemma case_4i : 63 <= zlen (repeat 1 64) /\
  to_ascii_4i ucd None (Some [66;252]) (Some (repeat 1 64)) 0 = Ok (0, Some ([120;110;45;45;98;45;101;104;97] ++ repeat 1 55)).
Proof. split; [vm_compute; congruence|]. vm_compute. reflexivity. Qed.
(** The documentation of idn2_to_ascii_4i promises a terminated string. *)
Lemma no_terminator : exists l s a r a', nfc_ok ucd /\ u32_string l /\ utf8 l s /\ zlen a = 64 /\ lookup_u8 ucd s 0 = Ok r /\
  to_ascii_4i ucd None (Some l) (Some a) 0 = Ok (IDN2_OK, Some a') /\ ~ In 0 a'.
Proof.
  exists [97], [97], (repeat 1 64), [97], (97 :: repeat 1 63). split; [exact ucd_nfc_ok|]. split; [unfold u32_string; in_range_list|].
  split; [apply u32_to_u8_iff; reflexivity|]. split; [reflexivity|]. split; [vm_compute; reflexivity|]. split; [vm_compute; reflexivity|].
  intros [I|I]; [discriminate|]. apply repeat_spec in I. discriminate.
Qed.

(** ** ToUnicode *)
Definition muen : list Z := [88;110;45;45;109;110;99;104;101;110;45;51;121;97;46;195;188;46]. (* "Xn--mnchen-3ya.ü." *)
Lemma muen_c : c_string muen. Proof. unfold c_string, muen. in_range_list. Qed.
Lemma case_unicode : c_string muen /\ unicode muen = Ok [109;252;110;99;104;101;110;46;252;46].
Proof. split; [exact muen_c|]. vm_compute. reflexivity. Qed.
Lemma case_long : unicode (repeat 97 64) = Fail IDN2_TOO_BIG_LABEL /\
  unicode (repeat 97 63 ++ 46 :: repeat 97 63 ++ 46 :: repeat 97 63 ++ 46 :: repeat 97 63) =
    Ok (repeat 97 63 ++ 46 :: repeat 97 63 ++ 46 :: repeat 97 63 ++ 46 :: repeat 97 63) /\
  unicode (repeat 97 63 ++ 46 :: repeat 97 63 ++ 46 :: repeat 97 63 ++ 46 :: repeat 97 63 ++ [46]) = Fail IDN2_TOO_BIG_DOMAIN.
Proof. vm_compute. auto. Qed.
(** "xn--_": a Punycode error, not among the documented codes. *)
Lemma undocumented : exists s rc, c_string s /\ unicode s = Fail rc /\ ~ In rc unicode_errors_documented.
Proof.
  exists [120;110;45;45;33], IDN2_PUNYCODE_BAD_INPUT. split; [unfold c_string; in_range_list|]. split; [reflexivity|].
  unfold unicode_errors_documented. cbn. intros [H|[H|[H|[H|[]]]]]; discriminate.
Qed.
Lemma case_44i : u32_string [120;110;45;45;116;100;97] /\
  to_unicode_44i None (Some [120;110;45;45;116;100;97]) (Some [1;2;3]) (Some 3) 0 = Ok (0, Some [252;2;3], Some 1) /\
  to_unicode_44i None (Some [97;98;99;100]) (Some [1;2;3]) (Some 2) 0 = Ok (0, Some [97;98;3], Some 4).
Proof. split; [unfold u32_string; in_range_list|]. vm_compute. auto. Qed.
(** Truncation is reported as success. *)
Lemma truncation : exists l s a n r, u32_string l /\ utf8 l s /\ 0 <= n <= zlen a /\ unicode s = Ok r /\
  to_unicode_44i None (Some l) (Some a) (Some n) 0 = Ok (IDN2_OK, Some (firstn 1 r), Some (zlen r)) /\ n < zlen r.
Proof.
  exists [97;98], [97;98], [0], 1, [97;98]. split; [unfold u32_string; in_range_list|]. split; [apply u32_to_u8_iff; reflexivity|].
  vm_compute. repeat split; congruence.
Qed.
Lemma case_8z8z : to_unicode_8z8z None (Some muen) (Some None) 0 = Ok (0, Some (Some [109;195;188;110;99;104;101;110;46;195;188;46])) /\
  to_unicode_8zlz latin1 None (Some muen) (Some None) 0 = Ok (0, Some (Some [109;252;110;99;104;101;110;46;252;46])) /\
  to_unicode_4z4z None (Some [88;110;45;45;109;110;99;104;101;110;45;51;121;97;46;252;46]) (Some None) 0 = Ok (0, Some (Some [109;252;110;99;104;101;110;46;252;46])).
Proof. vm_compute. auto. Qed.
(** "xn--r49b" decodes to a lone surrogate: UTF-32 output succeeds with it,
    UTF-8 output fails. *)
Lemma surrogate : exists s r, c_string s /\ unicode s = Ok r /\ ~ (exists b, utf8 r b) /\ to_unicode_8z4z (Some s) (Some None) 0 = Ok (IDN2_OK, Some (Some r)) /\
  to_unicode_8z8z None (Some s) (Some None) 0 = Ok (IDN2_ENCODING_ERROR, Some None).
Proof.
  exists [120;110;45;45;114;52;57;98], [56320]. split; [unfold c_string; in_range_list|]. split; [vm_compute; reflexivity|].
  split; [intros (b & H); apply u32_to_u8_iff in H; discriminate|]. vm_compute. auto.
Qed.
(** "xn--xn---3ra" is "xn--ü". *)
Lemma not_idempotent : exists s r b, c_string s /\ unicode s = Ok r /\ utf8 r b /\ unicode b = Fail IDN2_PUNYCODE_BAD_INPUT.
Proof.
  exists [120;110;45;45;120;110;45;45;45;51;114;97], [120;110;45;45;252], [120;110;45;45;195;188]. split; [unfold c_string; in_range_list|].
  split; [vm_compute; reflexivity|]. split; [apply u32_to_u8_iff; reflexivity|]. vm_compute. reflexivity.
Qed.
(** "xn--td_" is "xn--tda". *)
Lemma not_injective : exists s1 s2 r, s1 <> s2 /\ map lower s1 = s1 /\ map lower s2 = s2 /\ unicode s1 = Ok r /\ unicode s2 = Ok r.
Proof.
  exists [120;110;45;45;116;100;97], [120;110;45;45;116;100;95], [252]. split; [discriminate|]. vm_compute. auto.
Qed.

(** ** Round trip *)
Lemma case_roundtrip : nfc_ok ucd /\ c_string buecher /\ lookup_u8 ucd buecher 0 = Ok xn_buecher /\
  unicode xn_buecher = Ok [98;252;99;104;101;114;46;101;120] /\ utf8 [98;252;99;104;101;114;46;101;120] [98;195;188;99;104;101;114;46;101;120] /\
  stable 0 [98;252;99;104;101;114;46;101;120].
Proof.
  split; [exact ucd_nfc_ok|]. split; [exact buecher_c|]. split; [vm_compute; reflexivity|]. split; [vm_compute; reflexivity|].
  split; [apply u32_to_u8_iff; reflexivity|]. right. split; [reflexivity|]. right. repeat (apply Forall_cons; [vm_compute; discriminate|]). apply Forall_nil.
Qed.
Lemma back_transitional : exists src f r n b r', nfc_ok ucd /\ c_string src /\ opt_no_roundtrip f = false /\ opt_transitional f = true /\ lookup_u8 ucd src f = Ok r /\
  unicode r = Ok n /\ utf8 n b /\ lookup_u8 ucd b f = Ok r' /\ r' <> r.
Proof.
  exists xn_strasse, IDN2_TRANSITIONAL, xn_strasse, [115;116;114;97;223;101], strasse, [115;116;114;97;115;115;101].
  split; [exact ucd_nfc_ok|]. split; [unfold c_string, xn_strasse; in_range_list|]. split; [reflexivity|]. split; [reflexivity|].
  split; [vm_compute; reflexivity|]. split; [vm_compute; reflexivity|]. split; [apply u32_to_u8_iff; reflexivity|]. split; [vm_compute; reflexivity|discriminate].
Qed.
(** "xn--8rh" is U+2474, which maps to "(1)". *)
Lemma back_std3 : exists src f r n b r', nfc_ok ucd /\ c_string src /\ opt_no_roundtrip f = false /\ opt_transitional f = false /\ opt_std3 f = false /\
  lookup_u8 ucd src f = Ok r /\ unicode r = Ok n /\ utf8 n b /\ lookup_u8 ucd b f = Ok r' /\ r' <> r.
Proof.
  exists [120;110;45;45;56;114;104], 0, [120;110;45;45;56;114;104], [9332], [226;145;180], [40;49;41].
  split; [exact ucd_nfc_ok|]. split; [unfold c_string; in_range_list|]. split; [reflexivity|]. split; [reflexivity|]. split; [reflexivity|].
  split; [vm_compute; reflexivity|]. split; [vm_compute; reflexivity|]. split; [apply u32_to_u8_iff; reflexivity|]. split; [vm_compute; reflexivity|discriminate].
Qed.
(** With IDN2_NO_TR46 "XN--A" is passed through, but ToUnicode rejects it. *)
Lemma upper_ace : exists src f r, nfc_ok ucd /\ c_string src /\ opt_no_roundtrip f = false /\ opt_no_tr46 f = true /\
  lookup_u8 ucd src f = Ok r /\ unicode r = Fail IDN2_PUNYCODE_BAD_INPUT.
Proof.
  exists [88;78;45;45;33], IDN2_NO_TR46, [88;78;45;45;33]. split; [exact ucd_nfc_ok|]. split; [unfold c_string; in_range_list|].
  split; [reflexivity|]. split; [reflexivity|]. vm_compute. auto.
Qed.
Lemma no_locale_latin1 : from_locale latin1 buecher4 = Some buecher /\ from_locale latin1 [0x110000] = None.
Proof. vm_compute. auto. Qed.
