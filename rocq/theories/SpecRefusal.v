(** Why idn2_lookup_u8 refuses a name: what each error code says about it.
    Tests are listed in the order in which they are applied. *)
From Verif Require Import Base Uenv DataTypes Tables SpecTables SpecPuny SpecUtf8 SpecContext SpecBidi SpecLabel SpecNfc SpecLookup SpecToAscii SpecPunyErr.

(** The first condition of a list that does not hold, and its code. *)
Inductive first_wrong : list (Prop * Z) -> Z -> Prop :=
| fw_here : forall (P : Prop) rc ts, ~ P -> first_wrong ((P, rc) :: ts) rc
| fw_later : forall (P : Prop) r ts rc, P -> first_wrong ts rc -> first_wrong ((P, r) :: ts) rc.

Section Spec.
  Variable U : uenv.

  (** UTS #46 section 4.1. *)
  Definition uts46_tests (transitional std3 : bool) (p : list Z) : list (Prop * Z) :=
    [ (ok_normalises U p, IDN2_NFC);
      (ok_nfc U p, IDN2_NOT_NFC);
      (ok_2hyphen p, IDN2_2HYPHEN);
      (ok_hyphen_startend p, IDN2_HYPHEN_STARTEND);
      (ok_leading U p, IDN2_LEADING_COMBINING);
      (ok_status p transitional (negb std3), if transitional then IDN2_INVALID_TRANSITIONAL else IDN2_INVALID_NONTRANSITIONAL) ].
  (** RFC 5891 section 5.4. *)
  Definition idna2008_tests (relaxed : bool) (p : list Z) : list (Prop * Z) :=
    [ (ok_normalises U p, IDN2_NFC);
      (ok_nfc U p, IDN2_NOT_NFC);
      (ok_2hyphen p, IDN2_2HYPHEN);
      (ok_leading U p, IDN2_LEADING_COMBINING);
      (ok_disallowed p relaxed, IDN2_DISALLOWED);
      (ok_contextj_rule U p, IDN2_CONTEXTJ);
      (ok_no p UNASSIGNED, IDN2_UNASSIGNED);
      (ok_bidi U p, IDN2_BIDI) ].

  Definition room_codes : list Z := [IDN2_PUNYCODE_BIG_OUTPUT; IDN2_PUNYCODE_OVERFLOW].
  (** SpecPunyErr.v, with room for 63 code points. *)
  Definition undecodable (e : list Z) (rc : Z) : Prop := decode_fails 63 e rc.
  (** No encoding of [p] has 59 bytes or fewer.  The counters of the encoder can
      overflow only if [p] has more than four thousand million code points. *)
  Definition too_long (p : list Z) (rc : Z) : Prop :=
    (forall e, rfc_encodes p e -> 59 < zlen e) /\
    (rc = IDN2_PUNYCODE_BIG_OUTPUT \/ (rc = IDN2_PUNYCODE_OVERFLOW /\ 4000000000 < zlen p)).

  (** ** TR46 modes *)
  Definition decodable (s : list Z) : Prop := forall e, s = ace e -> exists p, decodes_to e p.
  Definition passes46 (f : Z) (s : list Z) : Prop :=
    (~ xn s /\ uts46_valid U (opt_transitional f) (opt_std3 f) s) \/
    (exists e p, s = ace e /\ decodes_to e p /\ uts46_valid U false (opt_std3 f) p).
  Inductive wrong46 (f : Z) (s : list Z) (rc : Z) : Prop :=
  | w46_label : ~ xn s -> first_wrong (uts46_tests (opt_transitional f) (opt_std3 f) s) rc -> wrong46 f s rc
  | w46_alabel : forall e p, s = ace e -> decodes_to e p -> first_wrong (uts46_tests false (opt_std3 f) p) rc -> wrong46 f s rc.
  (** All labels are examined before an error is reported, which is that of the
      last wrong label; only a label that cannot be decoded ends this at once. *)
  Inductive checks_refuse (f : Z) (ls : list (list Z)) (rc : Z) : Prop :=
  | cr_undecodable : forall a e b, ls = a ++ ace e :: b -> Forall decodable a -> undecodable e rc -> checks_refuse f ls rc
  | cr_wrong : forall a s b, ls = a ++ s :: b -> Forall decodable ls -> wrong46 f s rc -> Forall (passes46 f) b -> checks_refuse f ls rc.

  (** The Unicode form of a label; without the round-trip test A-labels are
      left alone. *)
  Inductive unicode_form (f : Z) (s : list Z) : list Z -> Prop :=
  | uf_alabel : forall e p, s = ace e -> opt_no_roundtrip f = false -> decodes_to e p -> unicode_form f s p
  | uf_ulabel : not_ascii s -> unicode_form f s s.
  (** Conversion of one label that has passed those tests. *)
  Inductive convert_refuses (f : Z) (s : list Z) : Z -> Prop :=
  | cv_long : all_ascii s -> (opt_no_roundtrip f = false -> ~ xn s) -> 63 < zlen s -> convert_refuses f s IDN2_TOO_BIG_LABEL
  | cv_test : forall p rc, unicode_form f s p -> opt_transitional f = false ->
      first_wrong (idna2008_tests (negb (opt_std3 f)) p) rc -> convert_refuses f s rc
  | cv_encode : forall p rc, unicode_form f s p -> (opt_transitional f = false -> idna2008_valid U (negb (opt_std3 f)) p) ->
      too_long p rc -> convert_refuses f s rc
  | cv_alabel : forall e p e', s = ace e -> opt_no_roundtrip f = false -> decodes_to e p ->
      (opt_transitional f = false -> idna2008_valid U (negb (opt_std3 f)) p) -> rfc_encodes p e' -> zlen e' <= 59 ->
      ~ same_but_case e e' -> convert_refuses f s IDN2_ALABEL_ROUNDTRIP_FAILED
  | cv_ulabel : forall e, not_ascii s -> opt_no_roundtrip f = false ->
      (opt_transitional f = false -> idna2008_valid U (negb (opt_std3 f)) s) -> rfc_encodes s e -> zlen e <= 59 -> ~ ascii_ldhu s ->
      convert_refuses f s IDN2_ALABEL_ROUNDTRIP_FAILED.

  (** ** Modes without TR46 *)
  Inductive raw_form (f : Z) (b : list Z) : list Z -> Prop :=
  | rf_alabel : forall e p, b = ace e -> opt_no_roundtrip f = false -> decodes_to e p -> Forall scalar p -> raw_form f b p
  | rf_ulabel : forall p, not_ascii b -> utf8 p b -> raw_form f b p.
  Inductive raw_refuses (f : Z) (b : list Z) : Z -> Prop :=
  | rw_long : all_ascii b -> (opt_no_roundtrip f = false -> ~ xn b) -> 63 < zlen b -> raw_refuses f b IDN2_TOO_BIG_LABEL
  | rw_undecodable : forall e rc, b = ace e -> all_ascii b -> opt_no_roundtrip f = false -> undecodable e rc -> raw_refuses f b rc
  | rw_surrogate : forall e p, b = ace e -> opt_no_roundtrip f = false -> decodes_to e p -> ~ Forall scalar p ->
      raw_refuses f b IDN2_ENCODING_ERROR
  | rw_utf8 : not_ascii b -> (forall p, ~ utf8 p b) -> raw_refuses f b IDN2_ENCODING_ERROR
  | rw_nfc : forall p, raw_form f b p -> opt_nfc f = true -> ~ qc_yes (ue_ccc U) 0 (visited false p) -> ue_nfc U p = None ->
      raw_refuses f b IDN2_NFC
  | rw_test : forall p0 p rc, raw_form f b p0 -> normal_form U (opt_nfc f) p0 p -> first_wrong (idna2008_tests false p) rc ->
      raw_refuses f b rc
  | rw_encode : forall p0 p rc, raw_form f b p0 -> normal_form U (opt_nfc f) p0 p -> idna2008_valid U false p -> too_long p rc ->
      raw_refuses f b rc
  | rw_alabel : forall e p0 p e', b = ace e -> opt_no_roundtrip f = false -> decodes_to e p0 -> Forall scalar p0 ->
      normal_form U (opt_nfc f) p0 p -> idna2008_valid U false p -> rfc_encodes p e' -> zlen e' <= 59 -> ~ same_but_case e e' -> raw_refuses f b IDN2_ALABEL_ROUNDTRIP_FAILED
  | rw_ulabel : forall p0 p e, not_ascii b -> utf8 p0 b -> normal_form U (opt_nfc f) p0 p -> opt_no_roundtrip f = false ->
      idna2008_valid U false p -> rfc_encodes p e -> zlen e <= 59 -> all_ascii p -> raw_refuses f b IDN2_ALABEL_ROUNDTRIP_FAILED.

  (** ** Names *)
  (** The first label that cannot be converted, or with which the result becomes
      too long. *)
  Inductive labels_refuse (conv : list Z -> list Z -> Prop) (ref : list Z -> Z -> Prop) (ls : list (list Z)) : Z -> Prop :=
  | lr_label : forall a s b ds rc, ls = a ++ s :: b -> Forall2 conv a ds -> zlen (join ds) <= 253 -> ref s rc -> labels_refuse conv ref ls rc
  | lr_total : forall a s b ds d, ls = a ++ s :: b -> Forall2 conv a ds -> zlen (join ds) <= 253 -> conv s d ->
      253 < zlen (join (ds ++ [d])) -> (b = [] -> d = [] -> 254 < zlen (join (ds ++ [d]))) ->
      labels_refuse conv ref ls IDN2_TOO_BIG_DOMAIN.

  Inductive refuses (f : Z) (src : list Z) : Z -> Prop :=
  | ref_flags : bad_flags f -> refuses f src IDN2_INVALID_FLAGS
  | ref_raw : forall ls rc, ~ bad_flags f -> opt_no_tr46 f = true -> dotted ls src ->
      labels_refuse (raw_label U f) (raw_refuses f) ls rc -> refuses f src rc
  | ref_utf8 : ~ bad_flags f -> opt_no_tr46 f = false -> (forall l, ~ utf8 l src) -> refuses f src IDN2_ENCODING_ERROR
  | ref_disallowed : forall l, ~ bad_flags f -> opt_no_tr46 f = false -> utf8 l src -> Exists (fun c => status_of c = Disallowed) l ->
      refuses f src IDN2_DISALLOWED
  | ref_long : forall l, ~ bad_flags f -> opt_no_tr46 f = false -> utf8 l src -> ~ Exists (fun c => status_of c = Disallowed) l ->
      255 <= zlen (uts46_map (opt_transitional f) (opt_std3 f) l) -> refuses f src IDN2_TOO_BIG_DOMAIN
  | ref_nfc : forall l, ~ bad_flags f -> opt_no_tr46 f = false -> utf8 l src -> ~ Exists (fun c => status_of c = Disallowed) l ->
      zlen (uts46_map (opt_transitional f) (opt_std3 f) l) < 255 ->
      ue_nfc U (uts46_map (opt_transitional f) (opt_std3 f) l) = None -> refuses f src IDN2_ENCODING_ERROR
  | ref_checks : forall l n ls rc, ~ bad_flags f -> opt_no_tr46 f = false -> utf8 l src -> ~ Exists (fun c => status_of c = Disallowed) l ->
      zlen (uts46_map (opt_transitional f) (opt_std3 f) l) < 255 ->
      ue_nfc U (uts46_map (opt_transitional f) (opt_std3 f) l) = Some n -> dotted ls n -> checks_refuse f ls rc -> refuses f src rc
  | ref_labels : forall l n ls rc, ~ bad_flags f -> opt_no_tr46 f = false -> utf8 l src -> ~ Exists (fun c => status_of c = Disallowed) l ->
      zlen (uts46_map (opt_transitional f) (opt_std3 f) l) < 255 ->
      ue_nfc U (uts46_map (opt_transitional f) (opt_std3 f) l) = Some n -> dotted ls n -> Forall (passes46 f) ls ->
      labels_refuse (tr46_label U f) (convert_refuses f) ls rc -> refuses f src rc.
End Spec.
