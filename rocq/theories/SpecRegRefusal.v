(** Exactly what idn2_register_u8 accepts, and what its error codes say. *)
From Verif Require Import Base Uenv DataTypes SpecTables SpecPuny SpecUtf8 SpecContext SpecBidi SpecLabel SpecNfc SpecLookup SpecRegister SpecToAscii SpecPunyErr SpecRefusal.

Section Spec.
  Variable U : uenv.

  (** RFC 5891 section 4.2, in the order of application. *)
  Definition registration_tests (p : list Z) : list (Prop * Z) :=
    [ (ok_normalises U p, IDN2_NFC);
      (ok_nfc U p, IDN2_NOT_NFC);
      (ok_2hyphen p, IDN2_2HYPHEN);
      (ok_hyphen_startend p, IDN2_HYPHEN_STARTEND);
      (ok_leading U p, IDN2_LEADING_COMBINING);
      (ok_disallowed p false, IDN2_DISALLOWED);
      (ok_contextj_rule U p, IDN2_CONTEXTJ);
      (ok_contexto_rule U p, IDN2_CONTEXTO);
      (ok_no p UNASSIGNED, IDN2_UNASSIGNED);
      (ok_bidi U p, IDN2_BIDI) ].

  (** [registers f u a r]: for the U-label [u] and the A-label [a], where given, [r]
      is registered. *)
  Inductive registers (f : Z) : option (list Z) -> option (list Z) -> list Z -> Prop :=
  | rg_ascii : forall u, all_ascii u -> zlen u <= 63 -> registers f (Some u) None u
  | rg_ulabel : forall u l p e, not_ascii u -> utf8 l u -> normal_form U (opt_nfc f) l p -> registrable U p -> rfc_encodes p e -> zlen e <= 59 ->
      registers f (Some u) None (ace e)
  | rg_alabel : forall u l a, a_label l a -> registrable U l -> (forall x, u = Some x -> utf8 l x) -> registers f u (Some a) a.

  (** An A-label that passes the first tests. *)
  Definition alabel_shape (e : list Z) : Prop := e <> [] /\ all_ascii e /\ zlen (ace e) <= 63.
  Inductive registration_refused (f : Z) : option (list Z) -> option (list Z) -> Z -> Prop :=
  | rr_long : forall u, all_ascii u -> 63 < zlen u -> registration_refused f (Some u) None IDN2_TOO_BIG_LABEL
  | rr_utf8 : forall u, not_ascii u -> (forall l, ~ utf8 l u) -> registration_refused f (Some u) None IDN2_ENCODING_ERROR
  | rr_nfc : forall u l, not_ascii u -> utf8 l u -> opt_nfc f = true -> ~ qc_yes (ue_ccc U) 0 (visited false l) -> ue_nfc U l = None ->
      registration_refused f (Some u) None IDN2_NFC
  | rr_test : forall u l p rc, not_ascii u -> utf8 l u -> normal_form U (opt_nfc f) l p -> first_wrong (registration_tests p) rc ->
      registration_refused f (Some u) None rc
  | rr_encode : forall u l p rc, not_ascii u -> utf8 l u -> normal_form U (opt_nfc f) l p -> registrable U p -> too_long p rc ->
      registration_refused f (Some u) None rc
  | rr_along : forall u a, 63 < zlen a -> registration_refused f u (Some a) IDN2_TOO_BIG_LABEL
  | rr_shape : forall u a, zlen a <= 63 -> (forall e, a = ace e -> ~ alabel_shape e) -> registration_refused f u (Some a) IDN2_INVALID_ALABEL
  | rr_undecodable : forall u e rc, alabel_shape e -> decode_fails 252 e rc -> registration_refused f u (Some (ace e)) rc
  | rr_surrogate : forall u e p, alabel_shape e -> decodes_to e p -> ~ Forall scalar p -> registration_refused f u (Some (ace e)) IDN2_ENCODING_ERROR
  | rr_mismatch : forall x e p, alabel_shape e -> decodes_to e p -> Forall scalar p -> ~ utf8 p x ->
      registration_refused f (Some x) (Some (ace e)) IDN2_UALABEL_MISMATCH
  | rr_atest : forall u e p rc, alabel_shape e -> decodes_to e p -> Forall scalar p -> (forall x, u = Some x -> utf8 p x) ->
      first_wrong (registration_tests p) rc -> registration_refused f u (Some (ace e)) rc
  | rr_respell : forall u e p, alabel_shape e -> decodes_to e p -> Forall scalar p -> (forall x, u = Some x -> utf8 p x) ->
      registrable U p -> ~ rfc_encodes p e -> registration_refused f u (Some (ace e)) IDN2_UALABEL_MISMATCH.
End Spec.
