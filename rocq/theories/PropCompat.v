(** C81: the libidn compatibility layer. *)
From Verif Require Import Base Uenv Ucd Lookup Api SpecNfc SpecLookup SpecCli Compat CompatProofs.

(** The flags argument of the macros can be any expression without the flags
    that change TR46 processing, although the macros have no parentheses. *)
Theorem C81_macros : forall U L j f e e', nfc_ok U -> locale_ok L -> parses 0 f e -> parses 0 (macro_flags f) e' ->
  opt_transitional (value e) = false /\ opt_no_tr46 (value e) = false ->
  (forall i o, idna_to_ascii_4i U j i o (value e') = to_ascii_4i U j i o (value e)) /\
  (forall i o, idna_to_ascii_4z U i o (value e') = to_ascii_4z U i o (value e)) /\
  (forall i o, (forall s, i = Some s -> c_string s) -> idna_to_ascii_8z U i o (value e') = to_ascii_8z U i o (value e)) /\
  (forall i o, idna_to_ascii_lz U L i o (value e') = to_ascii_lz U L i o (value e)).
Proof. exact (fun U L j f e e' K => macros_same U K L j f e e'). Qed.
Print Assumptions C81_macros.
Theorem C81_expands : forall f e, parses 0 f e -> exists e', parses 0 (macro_flags f) e'.
Proof. exact (fun f e P => match expansion 0 f e P with ex_intro _ e' (conj _ Q) => ex_intro _ e' Q end). Qed.
Print Assumptions C81_expands.
Theorem C81_unambiguous : forall l e e', parses 0 l e -> parses 0 l e' -> e' = e.
Proof. exact parse_unique. Qed.
Print Assumptions C81_unambiguous.
(** The flags of libidn: only the STD3 rules matter. *)
Theorem C81_libidn_flags : forall U f i o, nfc_ok U ->
  In f [0; IDNA_ALLOW_UNASSIGNED; IDNA_USE_STD3_ASCII_RULES; Z.lor IDNA_ALLOW_UNASSIGNED IDNA_USE_STD3_ASCII_RULES] ->
  (forall s, i = Some s -> c_string s) ->
  idna_to_ascii_8z U i o (Z.lor (Z.lor f IDN2_NFC_INPUT) IDN2_NONTRANSITIONAL) = to_ascii_8z U i o (Z.land f IDN2_USE_STD3_ASCII_RULES).
Proof. exact (fun U f i o K => libidn_flags U K f i o). Qed.
Print Assumptions C81_libidn_flags.
(** With other flags the missing parentheses show. *)
Theorem C81_other_flags_refuted : exists f e e' s r, parses 0 f e /\ parses 0 (macro_flags f) e' /\ c_string s /\
  idna_to_ascii_8z ucd (Some s) (Some None) (value e') = Ok (IDN2_OK, Some (Some r)) /\
  idna_to_ascii_8z ucd (Some s) (Some None) (Z.lor (Z.lor (value e) IDN2_NFC_INPUT) IDN2_NONTRANSITIONAL) = Ok (IDN2_INVALID_FLAGS, Some None).
Proof. exact parentheses_missing. Qed.
Print Assumptions C81_other_flags_refuted.
(** IDNA_INVALID_LENGTH is not what labels of invalid length give. *)
Theorem C81_length_refuted : (exists s rc, c_string s /\ idna_to_ascii_8z ucd (Some s) (Some None) 9 = Ok (rc, Some None) /\ rc = IDN2_TOO_BIG_LABEL /\ rc <> IDNA_INVALID_LENGTH) /\
  (exists s, c_string s /\ zlen s = 3 /\ idna_to_ascii_8z ucd (Some s) (Some None) 9 = Ok (IDNA_INVALID_LENGTH, Some None)).
Proof. exact invalid_length. Qed.
Print Assumptions C81_length_refuted.

Example C81_case_choice : parses 0 choice (ECond (ENum 1) (ENum IDN2_TRANSITIONAL) (ENum 0)) /\
  parses 0 (macro_flags choice) (ECond (ENum 1) (ENum IDN2_TRANSITIONAL) (EOr (EOr (ENum 0) (ENum IDN2_NFC_INPUT)) (ENum IDN2_NONTRANSITIONAL))).
Proof. exact case_choice. Qed.
Example C81_case_logic : parses 0 logic (ELOr (EAnd (ENum 32) (ENum 32)) (ENum 0)) /\ ordinary (value (ELOr (EAnd (ENum 32) (ENum 32)) (ENum 0))) /\
  parses 0 (macro_flags logic) (ELOr (EAnd (ENum 32) (ENum 32)) (EOr (EOr (ENum 0) (ENum IDN2_NFC_INPUT)) (ENum IDN2_NONTRANSITIONAL))).
Proof. exact case_logic. Qed.
