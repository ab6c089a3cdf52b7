(** The bounds at the Unicode 14 data, and runs of some size. *)
From Verif Require Import Base Uenv SpecNfc Idna Lookup Api Register Ucd UcdProofs Cost CostPuny CostLabel CostTop CostQuad.
Local Open Scope Z_scope.

Lemma ucd_join : ue_join ucd 0x200C <> UC_JOINING_TYPE_T.
Proof. vm_compute. discriminate. Qed.
Lemma ucd_fourfold : at_most_fourfold ucd.
Proof. exact (nfc_length ucd ucd_nfc_ok). Qed.
Lemma lookup14 : forall src flags, T_lookup_u8 ucd src flags <= 3770 * zlen src + 25000000.
Proof. exact (lookup_linear ucd ucd_join ucd_fourfold). Qed.
Lemma ucd_ccc0 : ue_ccc ucd digit0 = 0. Proof. vm_compute. reflexivity. Qed.
Lemma ucd_mark0 : ue_mark ucd digit0 = false. Proof. vm_compute. reflexivity. Qed.
Lemma register14 : forall A B, exists u, A * zlen u + B < T_register_u8 ucd (Some u) None 0.
Proof. exact (register_not_linear ucd ucd_qc_sound ucd_ccc0 ucd_mark0). Qed.
Lemma case_lookup : T_lookup_u8 ucd [109;195;188;110;99;104;101;110;46;100;101] 0 = 802.
Proof. vm_compute. reflexivity. Qed.
Lemma case_unicode : T_to_unicode_8z4z [120;110;45;45;109;110;99;104;101;110;45;51;121;97;46;100;101] = 65.
Proof. vm_compute. reflexivity. Qed.
(** Twice the digits, three times the work. *)
Lemma case_register : T_register_u8 ucd (Some (zeros8 50)) None 0 = 4953 /\ T_register_u8 ucd (Some (zeros8 100)) None 0 = 14903.
Proof. vm_compute. split; reflexivity. Qed.
