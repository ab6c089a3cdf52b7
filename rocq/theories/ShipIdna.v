(** IdnaMappingTable.txt is in the format of SpecScan.v and says what the rows of
    DataTr46.v say. *)
From Verif Require Import Base DataTypes DataTr46 SpecScan Recog TextIdna.
Lemma idna_recognized : file_rec idna_rec (Z.to_nat 20000) idna_text = Some idna_rows.
Proof. vm_compute. reflexivity. Qed.
Lemma idna_shipped : idna_file 1022 idna_text idna_rows.
Proof. exact (file_rec_spec _ _ _ idna_rec_spec _ _ _ idna_recognized). Qed.
