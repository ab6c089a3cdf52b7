(** Property C86: which version of libunistring is linked. *)
From Verif Require Import Base Uenv SpecUtf8 SpecNfc SpecLookup SpecToAscii Ucd UcdProofs Idna Lookup Api Register SpecAgree AgreeProofs AgreeTop AgreeUcd.

(** Two versions that say the same about the code points of a mapped name, and of
    the A-labels in it, give the same result or the same error. *)
Theorem C86_lookup : forall A U V src l f, agree A U V -> nfc_ok U -> nfc_ok V -> c_string src -> zlen src < two64 -> utf8 l src -> only A U f l ->
  lookup_u8 U src f = lookup_u8 V src f.
Proof. intros A U V src l f G. exact (lookup_agree A U V G src l f). Qed.
Print Assumptions C86_lookup.
Theorem C86_register : forall A U V u a o f, agree A U V -> nfc_ok U -> nfc_ok V -> (forall s, u = Some s -> c_string s) -> (forall s, a = Some s -> c_string s) -> only_registered A u a ->
  register_u8 U u a o f = register_u8 V u a o f.
Proof. intros A U V u a o f G. exact (register_agree A U V G u a o f). Qed.
Print Assumptions C86_register.
(** Versions that agree on the code points known to the tables of libidn2 accept
    the same names with the same results. *)
Theorem C86_upgrade : forall U V src f r, nfc_ok U -> nfc_ok V -> agree known U V -> c_string src -> zlen src < two64 -> ~ (opt_no_tr46 f = true /\ opt_nfc f = true) ->
  (lookup_u8 U src f = Ok r <-> lookup_u8 V src f = Ok r).
Proof. exact upgrade. Qed.
Print Assumptions C86_upgrade.
Theorem C86_register_upgrade : forall U V u a o o' f, nfc_ok U -> nfc_ok V -> agree known U V -> (forall s, u = Some s -> c_string s) -> (forall s, a = Some s -> c_string s) -> opt_nfc f = false ->
  (register_u8 U u a o f = Ok (IDN2_OK, o') <-> register_u8 V u a o f = Ok (IDN2_OK, o')).
Proof. exact register_upgrade. Qed.
Print Assumptions C86_register_upgrade.

(** The error of a refused name may change, *)
Theorem C86_error_refuted : exists U V src, nfc_ok U /\ nfc_ok V /\ agree known U V /\ c_string src /\
  lookup_u8 U src IDN2_NO_TR46 = Fail IDN2_UNASSIGNED /\ lookup_u8 V src IDN2_NO_TR46 = Fail IDN2_NOT_NFC.
Proof. exact error_differs. Qed.
Print Assumptions C86_error_refuted.
(** where names are normalised before anything looks at them, a refused name may
    become accepted, *)
Theorem C86_nfc_refuted : exists U V src r, nfc_ok U /\ nfc_ok V /\ agree known U V /\ c_string src /\
  lookup_u8 U src (IDN2_NO_TR46 + IDN2_NFC_INPUT) = Fail IDN2_UNASSIGNED /\ lookup_u8 V src (IDN2_NO_TR46 + IDN2_NFC_INPUT) = Ok r /\
  register_u8 U (Some src) None (Some None) IDN2_NFC_INPUT = Ok (IDN2_UNASSIGNED, Some None) /\ register_u8 V (Some src) None (Some None) IDN2_NFC_INPUT = Ok (IDN2_OK, Some (Some r)).
Proof. exact nfc_differs. Qed.
Print Assumptions C86_nfc_refuted.
(** and a version older than the tables, which does not know the mark U+0B55 yet,
    accepts more. *)
Theorem C86_older_refuted : exists V src r, nfc_ok V /\ (forall c, c <> 0xB55 -> ue_mark V c = ue_mark ucd c) /\
  ue_ccc V = ue_ccc ucd /\ ue_bidi V = ue_bidi ucd /\ ue_join V = ue_join ucd /\ ue_script V = ue_script ucd /\ ue_nfc V = ue_nfc ucd /\ known 0xB55 /\ c_string src /\
  lookup_u8 ucd src IDN2_TRANSITIONAL = Fail IDN2_LEADING_COMBINING /\ lookup_u8 V src IDN2_TRANSITIONAL = Ok r.
Proof. exact older_differs. Qed.
Print Assumptions C86_older_refuted.

(** Non-vacuity: Unicode 14 and a later version in which the unassigned U+0378 has
    got properties, and the name U+00E9 "." "xn--9ca". *)
Example C86_case : agree known ucd later /\ nfc_ok ucd /\ nfc_ok later /\ ue_mark ucd 0x378 <> ue_mark later 0x378 /\ ue_bidi ucd 0x378 <> ue_bidi later 0x378 /\ ue_nfc ucd [0x378] <> ue_nfc later [0x378] /\
  only known ucd 0 [0xE9; 46; 120; 110; 45; 45; 57; 99; 97] /\ utf8 [0xE9; 46; 120; 110; 45; 45; 57; 99; 97] [0xC3; 0xA9; 46; 120; 110; 45; 45; 57; 99; 97] /\
  lookup_u8 later [0xC3; 0xA9; 46; 120; 110; 45; 45; 57; 99; 97] 0 = Ok [120; 110; 45; 45; 57; 99; 97; 46; 120; 110; 45; 45; 57; 99; 97].
Proof.
  split; [exact later_agrees|]. split; [exact ucd_nfc_ok|]. split; [exact later_nfc_ok|]. split; [vm_compute; discriminate|]. split; [vm_compute; discriminate|]. split; [vm_compute; discriminate|].
  split; [exact only_case|]. split; [|vm_compute; reflexivity]. apply Utf8Proofs.u8_to_u32_iff; [repeat constructor; lia|vm_compute; reflexivity].
Qed.
