(** Property C85: IDN2_NFC_INPUT and canonical equivalence, without TR46. *)
From Verif Require Import Base Uenv SpecUtf8 SpecNfc SpecLookup SpecToAscii Ucd Lookup Api Register SpecCanon SpecNormInput NormInput.
Notation canon := SpecCanon.canon.

(** Equivalent names have one result. *)
Theorem C85_lookup : forall s1 s2 l1 l2 f, utf8 l1 s1 -> utf8 l2 s2 -> opt_no_tr46 f = true -> opt_nfc f = true -> canon l1 l2 ->
  Forall (fun c => ~ ascii_twin c) l1 -> Forall (fun c => ~ ascii_twin c) l2 -> Forall (fun c => ~ supplementary c) l1 -> Forall (fun c => ~ supplementary c) l2 ->
  lookup_u8 ucd s1 f = lookup_u8 ucd s2 f.
Proof. exact raw_lookup_same. Qed.
Print Assumptions C85_lookup.
Theorem C85_register : forall s1 s2 l1 l2 f o, utf8 l1 s1 -> utf8 l2 s2 -> opt_nfc f = true -> canon l1 l2 ->
  Forall (fun c => ~ ascii_twin c) l1 -> Forall (fun c => ~ ascii_twin c) l2 -> Forall (fun c => ~ supplementary c) l1 -> Forall (fun c => ~ supplementary c) l2 ->
  register_u8 ucd (Some s1) None o f = register_u8 ucd (Some s2) None o f.
Proof. exact register_same. Qed.
Print Assumptions C85_register.
(** Two equivalent names, whatever they contain and whatever the flags, are
    never given different results when both are accepted. *)
Theorem C85_lookup_accepted : forall s1 s2 l1 l2 f r1 r2, c_string s1 -> c_string s2 -> zlen s1 < two64 -> zlen s2 < two64 -> utf8 l1 s1 -> utf8 l2 s2 -> opt_no_tr46 f = true ->
  canon l1 l2 -> lookup_u8 ucd s1 f = Ok r1 -> lookup_u8 ucd s2 f = Ok r2 -> r1 = r2.
Proof. exact raw_lookup_accepted. Qed.
Print Assumptions C85_lookup_accepted.
Theorem C85_register_accepted : forall s1 s2 l1 l2 f q1 q2 r1 r2, c_string s1 -> c_string s2 -> utf8 l1 s1 -> utf8 l2 s2 -> canon l1 l2 ->
  register_u8 ucd (Some s1) None (Some q1) f = Ok (IDN2_OK, Some r1) -> register_u8 ucd (Some s2) None (Some q2) f = Ok (IDN2_OK, Some r2) -> r1 = r2.
Proof. exact register_accepted. Qed.
Print Assumptions C85_register_accepted.
(** The three characters excluded are those equivalent to ASCII text. *)
Theorem C85_twins : forall c, 128 <= c -> (ascii_twin c <-> all_ascii (decomp1 c)).
Proof. exact twins. Qed.
Print Assumptions C85_twins.

(** The conditions are needed: ASCII labels are let through untested, *)
Theorem C85_twin_refuted : exists s1 s2 l1 l2 r, c_string s1 /\ c_string s2 /\ utf8 l1 s1 /\ utf8 l2 s2 /\ canon l1 l2 /\
  Forall (fun c => ~ supplementary c) l1 /\ Forall (fun c => ~ supplementary c) l2 /\
  lookup_u8 ucd s1 (IDN2_NO_TR46 + IDN2_NFC_INPUT) = Ok r /\ lookup_u8 ucd s2 (IDN2_NO_TR46 + IDN2_NFC_INPUT) = Fail IDN2_DISALLOWED /\
  register_u8 ucd (Some s1) None (Some None) IDN2_NFC_INPUT = Ok (IDN2_OK, Some (Some r)) /\ register_u8 ucd (Some s2) None (Some None) IDN2_NFC_INPUT = Ok (IDN2_DISALLOWED, Some None).
Proof. exact apart_twin. Qed.
Print Assumptions C85_twin_refuted.
(** and the test whether there is anything to normalise overlooks characters: *)
Theorem C85_supplementary_refuted : exists s1 s2 l1 l2 r, c_string s1 /\ c_string s2 /\ utf8 l1 s1 /\ utf8 l2 s2 /\ canon l1 l2 /\
  Forall (fun c => ~ ascii_twin c) l1 /\ Forall (fun c => ~ ascii_twin c) l2 /\
  lookup_u8 ucd s1 (IDN2_NO_TR46 + IDN2_NFC_INPUT) = Ok r /\ lookup_u8 ucd s2 (IDN2_NO_TR46 + IDN2_NFC_INPUT) = Fail IDN2_NOT_NFC /\
  register_u8 ucd (Some s1) None (Some None) IDN2_NFC_INPUT = Ok (IDN2_OK, Some (Some r)) /\ register_u8 ucd (Some s2) None (Some None) IDN2_NFC_INPUT = Ok (IDN2_NOT_NFC, Some None).
Proof. exact apart_supplementary. Qed.
Print Assumptions C85_supplementary_refuted.
(** When the A-label is given as well, the flag does nothing. *)
Theorem C85_alabel_refuted : exists s1 s2 l1 l2 a, c_string s1 /\ c_string s2 /\ utf8 l1 s1 /\ utf8 l2 s2 /\ canon l1 l2 /\ plain_text l1 /\ plain_text l2 /\
  register_u8 ucd (Some s1) None (Some None) IDN2_NFC_INPUT = Ok (IDN2_OK, Some (Some a)) /\ register_u8 ucd (Some s2) None (Some None) IDN2_NFC_INPUT = Ok (IDN2_OK, Some (Some a)) /\
  register_u8 ucd (Some s1) (Some a) (Some None) IDN2_NFC_INPUT = Ok (IDN2_OK, Some (Some a)) /\ register_u8 ucd (Some s2) (Some a) (Some None) IDN2_NFC_INPUT = Ok (IDN2_UALABEL_MISMATCH, Some None).
Proof. exact apart_alabel. Qed.
Print Assumptions C85_alabel_refuted.

(** Non-vacuity: U+1E69 and the letter with its two marks, after a dot. *)
Example C85_case : opt_no_tr46 65 = true /\ opt_nfc 65 = true /\ canon [97; 46; 0x1E69] [97; 46; 0x73; 0x307; 0x323] /\ utf8 [97; 46; 0x1E69] [97; 46; 0xE1; 0xB9; 0xA9] /\
  utf8 [97; 46; 0x73; 0x307; 0x323] [97; 46; 0x73; 0xCC; 0x87; 0xCC; 0xA3] /\ plain_text [97; 46; 0x1E69] /\ plain_text [97; 46; 0x73; 0x307; 0x323] /\
  lookup_u8 ucd [97; 46; 0xE1; 0xB9; 0xA9] 65 = Ok [97; 46; 120; 110; 45; 45; 49; 105; 103] /\ lookup_u8 ucd [97; 46; 0x73; 0xCC; 0x87; 0xCC; 0xA3] 65 = Ok [97; 46; 120; 110; 45; 45; 49; 105; 103] /\
  register_u8 ucd (Some [0x73; 0xCC; 0x87; 0xCC; 0xA3]) None (Some None) 1 = Ok (IDN2_OK, Some (Some [120; 110; 45; 45; 49; 105; 103])).
Proof.
  split; [reflexivity|]. split; [reflexivity|]. split; [apply CanonProofs.canon_iff; vm_compute; reflexivity|]. split; [coded|]. split; [coded|].
  split; [repeat constructor; unfold ascii_twin, supplementary; lia|]. split; [repeat constructor; unfold ascii_twin, supplementary; lia|].
  split; [vm_compute; reflexivity|]. split; vm_compute; reflexivity.
Qed.
