(** Property C66: which registrations idn2_register_u8 accepts, and what its error codes say.
    [registers] and [registration_refused] are in SpecRegRefusal.v. *)
From Verif Require Import Base PunyBase Uenv DataTypes SpecUtf8 SpecPuny SpecTables SpecLabel SpecNfc SpecLookup SpecRegister SpecApi
  Api Register SpecToAscii SpecRefusal SpecRegRefusal Ucd UcdProofs RegisterTop RegRefusalTop.

Theorem C66_exact : forall U f u a, nfc_ok U -> (forall s, u = Some s -> c_string s) -> (forall s, a = Some s -> c_string s) ->
  forall q r, register_u8 U u a (Some q) f = Ok (IDN2_OK, Some (Some r)) <-> registers U f u a r.
Proof. exact registration_exact. Qed.
Print Assumptions C66_exact.
Theorem C66_explained : forall U f u a, nfc_ok U -> (forall s, u = Some s -> c_string s) -> (forall s, a = Some s -> c_string s) ->
  forall o rc o', register_u8 U u a o f = Ok (rc, o') -> rc <> IDN2_OK -> registration_refused U f u a rc.
Proof. exact registration_explained. Qed.
Print Assumptions C66_explained.
(** Conversely.  Only for U-labels of more than a thousand million bytes it is left open which of two codes is reported. *)
Theorem C66_refused : forall U f u a, nfc_ok U -> (forall s, u = Some s -> c_string s) -> (forall s, a = Some s -> c_string s) ->
  forall o rc, registration_refused U f u a rc ->
  exists rc', register_u8 U u a o f = Ok (rc', o) /\ rc' <> IDN2_OK /\ (rc' = rc \/ ((exists s, u = Some s /\ a = None /\ 1000000000 < zlen s) /\ In rc room_codes /\ In rc' room_codes)).
Proof. exact registration_refusal. Qed.
Print Assumptions C66_refused.
(** For all others, exactly. *)
Theorem C66_refused_exact : forall U f u a, nfc_ok U -> (forall s, u = Some s -> c_string s) -> (forall s, a = Some s -> c_string s) ->
  (forall s, u = Some s -> a = None -> zlen s <= 1000000000) -> forall o rc,
  (rc <> IDN2_OK /\ register_u8 U u a o f = Ok (rc, o)) <-> registration_refused U f u a rc.
Proof. exact registration_refused_exact. Qed.
Print Assumptions C66_refused_exact.
Theorem C66_unique : forall U f u a, nfc_ok U -> (forall s, u = Some s -> c_string s) -> (forall s, a = Some s -> c_string s) ->
  forall c d, registration_refused U f u a c -> registration_refused U f u a d -> c = d \/
    ((exists s, u = Some s /\ a = None /\ 1000000000 < zlen s) /\ In c room_codes /\ In d room_codes).
Proof. exact registration_unique. Qed.
Print Assumptions C66_unique.
(** The two specifications partition the requests that name a label. *)
Theorem C66_accept_or_refuse : forall U f u a, nfc_ok U -> (forall s, u = Some s -> c_string s) -> (forall s, a = Some s -> c_string s) ->
  u <> None \/ a <> None ->
  ((exists r, registers U f u a r) \/ (exists rc, registration_refused U f u a rc)) /\
  ~ ((exists r, registers U f u a r) /\ (exists rc, registration_refused U f u a rc)).
Proof. exact registration_partition. Qed.
Print Assumptions C66_accept_or_refuse.
Example C66_case : nfc_ok ucd /\ c_string xnTda /\ c_string [0xC3; 0xBC; 45] /\ c_string [101; 204; 129] /\
  register_u8 ucd (Some ue8) None (Some None) 0 = Ok (IDN2_OK, Some (Some xn_ue)) /\
  register_u8 ucd (Some y64) None (Some None) 0 = Ok (IDN2_TOO_BIG_LABEL, Some None) /\
  register_u8 ucd (Some [0xC3]) None (Some None) 0 = Ok (IDN2_ENCODING_ERROR, Some None) /\
  register_u8 ucd (Some [0xC3; 0xBC; 45]) None (Some None) 0 = Ok (IDN2_HYPHEN_STARTEND, Some None) /\
  register_u8 ucd (Some [0xC3; 0xBC; 85]) None (Some None) 0 = Ok (IDN2_DISALLOWED, Some None) /\
  register_u8 ucd (Some [101; 204; 129]) None (Some None) 0 = Ok (IDN2_NOT_NFC, Some None) /\
  register_u8 ucd None (Some [97; 98; 99]) (Some None) 0 = Ok (IDN2_INVALID_ALABEL, Some None) /\
  register_u8 ucd None (Some [120; 110; 45; 45; 33]) (Some None) 0 = Ok (IDN2_PUNYCODE_BAD_INPUT, Some None) /\
  register_u8 ucd None (Some xnTda) (Some None) 0 = Ok (IDN2_UALABEL_MISMATCH, Some None).
Proof. exact case_registration. Qed.
