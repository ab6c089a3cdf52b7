(** DerivedNormalizationProps.txt is in the format of SpecScan.v and says what the
    rows of DataNfc.v say. *)
From Verif Require Import Base DataTypes DataNfc SpecScan Recog TextProps.
Lemma props_recognized : file_rec props_rec (Z.to_nat 20000) props_text = Some nfcqc_rows.
Proof. vm_compute. reflexivity. Qed.
Lemma props_shipped : props_file 1022 props_text nfcqc_rows.
Proof. exact (file_rec_spec _ _ _ props_rec_spec _ _ _ props_recognized). Qed.
