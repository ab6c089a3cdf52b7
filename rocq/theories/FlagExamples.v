(** Names for which transitional processing and the STD3 rules matter. *)
From Verif Require Import Base PunyBase Uenv DataTypes SpecUtf8 SpecTables SpecLabel SpecNfc SpecLookup Lookup Utf8 Utf8Proofs Ucd UcdProofs.

(** U+2615 is allowed by UTS 46 and disallowed by IDNA 2008. *)
Lemma transitional_more : exists src l r, nfc_ok ucd /\ c_string src /\ utf8 l src /\ Forall (fun c => status_of c <> Deviation) l /\
  ue_nfc ucd (uts46_map false false l) = Some l /\ lookup_u8 ucd src IDN2_TRANSITIONAL = Ok r /\ lookup_u8 ucd src IDN2_NONTRANSITIONAL = Fail IDN2_DISALLOWED.
Proof.
  exists [0xE2; 0x98; 0x95], [0x2615], [120; 110; 45; 45; 53; 51; 104]. split; [exact ucd_nfc_ok|]. split; [repeat constructor; lia|].
  split; [apply u8_to_u32_iff; [repeat constructor; lia|vm_compute; reflexivity]|].
  split; [constructor; [vm_compute; discriminate|constructor]|]. split; [vm_compute; reflexivity|]. split; vm_compute; reflexivity.
Qed.
(** U+00DF *)
Lemma deviation_differs : exists src l r r', nfc_ok ucd /\ c_string src /\ utf8 l src /\ ~ Forall (fun c => status_of c <> Deviation) l /\
  lookup_u8 ucd src IDN2_TRANSITIONAL = Ok r /\ lookup_u8 ucd src IDN2_NONTRANSITIONAL = Ok r' /\ r <> r'.
Proof.
  exists [0xC3; 0x9F], [0xDF], [115; 115], [120; 110; 45; 45; 122; 99; 97]. split; [exact ucd_nfc_ok|]. split; [repeat constructor; lia|].
  split; [apply u8_to_u32_iff; [repeat constructor; lia|vm_compute; reflexivity]|].
  split; [intros F; apply Forall_inv in F; apply F; vm_compute; reflexivity|]. split; [vm_compute; reflexivity|]. split; [vm_compute; reflexivity|discriminate].
Qed.
(** xn--1ch stands for U+2260, allowed by UTS 46 but for the STD3 rules. *)
Lemma std3_less : exists src l r rc, nfc_ok ucd /\ c_string src /\ utf8 l src /\ Forall (fun c => ~ is_std3 c) l /\
  lookup_u8 ucd src 0 = Ok r /\ lookup_u8 ucd src IDN2_USE_STD3_ASCII_RULES = Fail rc.
Proof.
  exists [120; 110; 45; 45; 49; 99; 104], [120; 110; 45; 45; 49; 99; 104], [120; 110; 45; 45; 49; 99; 104], (-313). split; [exact ucd_nfc_ok|]. split; [repeat constructor; lia|].
  split; [apply u8_to_u32_iff; [repeat constructor; lia|vm_compute; reflexivity]|].
  split; [|split; vm_compute; reflexivity].
  assert (X : forall c, (match status_of c with Std3Valid | Std3Mapped => true | _ => false end) = false -> ~ is_std3 c) by (intros c E [H|H]; rewrite H in E; discriminate).
  repeat (apply Forall_cons; [apply X; vm_compute; reflexivity|]). constructor.
Qed.
