(** Properties C57-C61, C63: exactly what idn2_lookup_u8 accepts, and how its
    results under different flags relate.  [accepts] and [rfc_encodes] are in
    SpecToAscii.v; [ucd] is the Unicode 14 database of Ucd.v. *)
From Verif Require Import Base PunyBase Uenv DataTypes Puny SpecUtf8 SpecPuny SpecTables SpecLabel SpecNfc SpecLookup SpecToAscii
  Lookup Api PunyExact ToAsciiProofs FlagRel Ucd UcdProofs LookupExamples ApiExamples AcceptExamples FlagExamples FlagConverse Compose ComposeTop.

(** C57. *)
Theorem C57_encode_exact : forall L mo cap s, u32_list L -> 0 <= mo <= 109 -> mo <= cap ->
  (puny_encode L mo cap = Ok s <-> Forall permitted L /\ rfc_encodes L s /\ zlen s <= mo).
Proof. exact encode_iff. Qed.
Print Assumptions C57_encode_exact.
Theorem C57_encoding_unique : forall p e1 e2, Forall permitted p -> rfc_encodes p e1 -> rfc_encodes p e2 ->
  zlen e1 <= 109 -> zlen e2 <= 109 -> e1 = e2.
Proof. exact encoding_unique. Qed.
Print Assumptions C57_encoding_unique.
Example C57_case : u32_list [36; 32; 252] /\ Forall permitted [36; 32; 252] /\
  rfc_encodes [36; 32; 252] [36; 32; 45; 121; 107; 97] /\
  ~ (exists e, rfc_encodes [252; 56000] e /\ zlen e <= 59 /\ Forall permitted [252; 56000]).
Proof. exact case_encode. Qed.

(** C58. *)
Theorem C58_lookup_exact : forall U, nfc_ok U -> forall src f r, c_string src -> zlen src < two64 ->
  (lookup_u8 U src f = Ok r <-> accepts U f src r).
Proof. exact lookup_exact. Qed.
Print Assumptions C58_lookup_exact.
Theorem C58_refusal : forall U src f, nfc_ok U -> c_string src -> zlen src < two64 ->
  ((exists rc, lookup_u8 U src f = Fail rc) <-> forall r, ~ accepts U f src r).
Proof. exact refusal. Qed.
Print Assumptions C58_refusal.
Theorem C58_api : forall U src f old r, nfc_ok U -> c_string src -> zlen src < two64 ->
  (idn2_lookup_u8 U (Some src) (Some old) f = Ok (IDN2_OK, Some (Some r)) <-> accepts U f src r).
Proof. exact api_exact. Qed.
Print Assumptions C58_api.
(** With the Unicode 14 data, nothing is assumed about normalisation. *)
Theorem C58_unicode14 : forall src f r, c_string src -> zlen src < two64 ->
  (lookup_u8 ucd src f = Ok r <-> accepts ucd f src r).
Proof. exact ucd_exact. Qed.
Print Assumptions C58_unicode14.
Theorem C58_unique : forall U src f r1 r2, nfc_ok U -> c_string src -> zlen src < two64 ->
  accepts U f src r1 -> accepts U f src r2 -> r1 = r2.
Proof. exact accepts_unique. Qed.
Print Assumptions C58_unique.
Example C58_case : accepts ucd 0 buecher xn_buecher /\ (forall r, ~ accepts ucd IDN2_NO_TR46 buecher r).
Proof. exact case_accepts. Qed.

(** C59. *)
Theorem C59_no_roundtrip_more : forall U src f g r, nfc_ok U -> c_string src -> zlen src < two64 -> ~ bad_flags g ->
  opt_nfc f = opt_nfc g -> opt_transitional f = opt_transitional g -> opt_std3 f = opt_std3 g -> opt_no_tr46 f = opt_no_tr46 g ->
  opt_no_roundtrip f = false -> opt_no_roundtrip g = true ->
  lookup_u8 U src f = Ok r -> exists r', lookup_u8 U src g = Ok r' /\ same_but_case r r'.
Proof. exact no_roundtrip_more. Qed.
Print Assumptions C59_no_roundtrip_more.
Example C59_case : nfc_ok ucd /\ ~ bad_flags 192 /\
  lookup_u8 ucd [120;110;45;45;116;100;65] 64 = Ok [120;110;45;45;116;100;97] /\
  lookup_u8 ucd [120;110;45;45;116;100;65] 192 = Ok [120;110;45;45;116;100;65] /\
  lookup_u8 ucd [120;110;45;45;97] 64 = Fail IDN2_DISALLOWED /\
  lookup_u8 ucd [120;110;45;45;97] 192 = Ok [120;110;45;45;97].
Proof. exact case_no_roundtrip. Qed.

(** C60. *)
Theorem C60_transitional_agrees : forall U src f g r l n, nfc_ok U -> c_string src -> zlen src < two64 -> ~ bad_flags g ->
  opt_no_tr46 f = false -> opt_no_tr46 g = false -> opt_transitional f = false -> opt_transitional g = true ->
  opt_std3 f = opt_std3 g -> opt_no_roundtrip f = opt_no_roundtrip g ->
  utf8 l src -> Forall (fun c => status_of c <> Deviation) l ->
  ue_nfc U (uts46_map false (opt_std3 f) l) = Some n -> Forall (fun c => status_of c <> Deviation) n ->
  lookup_u8 U src f = Ok r -> lookup_u8 U src g = Ok r.
Proof. exact transitional_agrees. Qed.
Print Assumptions C60_transitional_agrees.
(** If moreover the labels pass the tests of RFC 5891, the two modes agree. *)
Theorem C60_transitional_exact : forall U src f g r l n, nfc_ok U -> c_string src -> zlen src < two64 -> ~ bad_flags f -> ~ bad_flags g ->
  opt_no_tr46 f = false -> opt_no_tr46 g = false -> opt_transitional f = false -> opt_transitional g = true ->
  opt_std3 f = opt_std3 g -> opt_no_roundtrip f = opt_no_roundtrip g ->
  utf8 l src -> Forall (fun c => status_of c <> Deviation) l ->
  ue_nfc U (uts46_map false (opt_std3 f) l) = Some n -> Forall (fun c => status_of c <> Deviation) n ->
  (forall ls s p, dotted ls n -> In s ls -> (not_ascii s /\ p = s) \/ (exists e, s = ace e /\ decodes_to e p) -> idna2008_valid U (negb (opt_std3 f)) p) ->
  (lookup_u8 U src f = Ok r <-> lookup_u8 U src g = Ok r).
Proof. exact transitional_exact. Qed.
Print Assumptions C60_transitional_exact.
(** Not without: transitional processing leaves out the tests of RFC 5891. *)
Theorem C60_converse_refuted : exists src l r, nfc_ok ucd /\ c_string src /\ utf8 l src /\ Forall (fun c => status_of c <> Deviation) l /\
  ue_nfc ucd (uts46_map false false l) = Some l /\ lookup_u8 ucd src IDN2_TRANSITIONAL = Ok r /\ lookup_u8 ucd src IDN2_NONTRANSITIONAL = Fail IDN2_DISALLOWED.
Proof. exact transitional_more. Qed.
Print Assumptions C60_converse_refuted.
Theorem C60_deviation_refuted : exists src l r r', nfc_ok ucd /\ c_string src /\ utf8 l src /\ ~ Forall (fun c => status_of c <> Deviation) l /\
  lookup_u8 ucd src IDN2_TRANSITIONAL = Ok r /\ lookup_u8 ucd src IDN2_NONTRANSITIONAL = Ok r' /\ r <> r'.
Proof. exact deviation_differs. Qed.
Print Assumptions C60_deviation_refuted.
Example C60_case : nfc_ok ucd /\ utf8 buecher4 buecher /\ Forall (fun c => status_of c <> Deviation) buecher4 /\
  ue_nfc ucd (uts46_map false false buecher4) = Some (uts46_map false false buecher4) /\
  Forall (fun c => status_of c <> Deviation) (uts46_map false false buecher4) /\
  lookup_u8 ucd buecher 0 = Ok xn_buecher /\ lookup_u8 ucd buecher IDN2_TRANSITIONAL = Ok xn_buecher /\
  lookup_u8 ucd strasse 0 <> lookup_u8 ucd strasse IDN2_TRANSITIONAL.
Proof. exact case_transitional. Qed.

(** C61. *)
Theorem C61_std3_agrees : forall U src f g r l, nfc_ok U -> c_string src -> zlen src < two64 -> ~ bad_flags g ->
  opt_no_tr46 f = false -> opt_no_tr46 g = false -> opt_transitional f = opt_transitional g ->
  opt_std3 f = true -> opt_std3 g = false -> opt_no_roundtrip f = opt_no_roundtrip g ->
  utf8 l src -> Forall (fun c => ~ is_std3 c) l ->
  lookup_u8 U src f = Ok r -> lookup_u8 U src g = Ok r.
Proof. exact std3_agrees. Qed.
Print Assumptions C61_std3_agrees.
(** If moreover no A-label stands for such a character, the flag has no effect. *)
Theorem C61_std3_exact : forall U src f g r l n, nfc_ok U -> c_string src -> zlen src < two64 -> ~ bad_flags f -> ~ bad_flags g ->
  opt_no_tr46 f = false -> opt_no_tr46 g = false -> opt_transitional f = opt_transitional g ->
  opt_std3 f = true -> opt_std3 g = false -> opt_no_roundtrip f = opt_no_roundtrip g ->
  utf8 l src -> Forall (fun c => ~ is_std3 c) l ->
  ue_nfc U (uts46_map (opt_transitional f) true l) = Some n -> Forall (fun c => ~ is_std3 c) n ->
  (forall ls e p, dotted ls n -> In (ace e) ls -> decodes_to e p -> Forall (fun c => ~ is_std3 c) p) ->
  (lookup_u8 U src f = Ok r <-> lookup_u8 U src g = Ok r).
Proof. exact std3_exact. Qed.
Print Assumptions C61_std3_exact.
(** Not without: an A-label may stand for such a character. *)
Theorem C61_converse_refuted : exists src l r rc, nfc_ok ucd /\ c_string src /\ utf8 l src /\ Forall (fun c => ~ is_std3 c) l /\
  lookup_u8 ucd src 0 = Ok r /\ lookup_u8 ucd src IDN2_USE_STD3_ASCII_RULES = Fail rc.
Proof. exact std3_less. Qed.
Print Assumptions C61_converse_refuted.
Example C61_case : nfc_ok ucd /\ utf8 buecher4 buecher /\ Forall (fun c => ~ is_std3 c) buecher4 /\
  lookup_u8 ucd buecher 32 = Ok xn_buecher /\ lookup_u8 ucd buecher 0 = Ok xn_buecher /\
  lookup_u8 ucd [95;195;188] 32 = Ok [120;110;45;45;116;100;97] /\ lookup_u8 ucd [95;195;188] 0 = Ok [120;110;45;45;95;45;101;104;97].
Proof. exact case_std3. Qed.

(** C63: lookup treats the labels of a name one by one. *)
Theorem C63_compose : forall U, nfc_ok U -> forall a b f r, c_string a -> c_string b -> zlen (a ++ 46 :: b) < two64 ->
  (lookup_u8 U (a ++ 46 :: b) f = Ok r <->
   exists ra rb, lookup_u8 U a f = Ok ra /\ lookup_u8 U b f = Ok rb /\ r = ra ++ 46 :: rb /\
     (zlen r <= 253 \/ (zlen r = 254 /\ ends_in_dot rb)) /\
     (opt_no_tr46 f = false -> forall l, utf8 l (a ++ 46 :: b) -> zlen (uts46_map (opt_transitional f) (opt_std3 f) l) < 255)).
Proof. exact lookup_compose. Qed.
Print Assumptions C63_compose.
(** In particular the full stop of an absolute name is kept. *)
Theorem C63_absolute : forall U, nfc_ok U -> forall a f r, c_string a -> zlen a < two64 - 1 -> lookup_u8 U a f = Ok r -> zlen r <= 253 ->
  (opt_no_tr46 f = false -> forall l, utf8 l (a ++ [46]) -> zlen (uts46_map (opt_transitional f) (opt_std3 f) l) < 255) ->
  lookup_u8 U (a ++ [46]) f = Ok (r ++ [46]).
Proof. exact lookup_absolute. Qed.
Print Assumptions C63_absolute.
Example C63_case : nfc_ok ucd /\ c_string buecher /\ c_string strasse /\
  lookup_u8 ucd (buecher ++ 46 :: strasse) 0 = Ok (xn_buecher ++ 46 :: [120;110;45;45;115;116;114;97;101;45;111;113;97]) /\
  lookup_u8 ucd strasse 0 = Ok [120;110;45;45;115;116;114;97;101;45;111;113;97].
Proof. exact case_compose. Qed.
(** RFC 5893 has a condition on all labels of a name with a right-to-left one;
    the library looks at each label alone. *)
Theorem C63_bidi_domain_refuted : exists src l ls r, lookup_u8 ucd src 0 = Ok r /\ utf8 l src /\ dotted ls l /\
  bidi_domain ucd ls /\ ~ Forall (SpecBidi.rfc5893 (ue_bidi ucd)) ls.
Proof. exact bidi_domain_witness. Qed.
Print Assumptions C63_bidi_domain_refuted.
(** Empty labels pass. *)
Theorem C63_empty_label_refuted : exists src r ls a b, lookup_u8 ucd src 0 = Ok r /\ dotted ls r /\ ls = a ++ [] :: b /\ b <> [].
Proof. exact empty_label_witness. Qed.
Print Assumptions C63_empty_label_refuted.
