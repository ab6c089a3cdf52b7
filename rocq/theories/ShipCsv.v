(** idna-tables-properties.csv is in the format of SpecScan.v and says what the
    rows of DataCsv.v say. *)
From Coq Require Import String.
From Verif Require Import Base DataTypes DataCsv SpecScan Recog TextCsv.
Local Open Scope list_scope.
Local Open Scope Z_scope.
Definition csv_header : list Z := Eval vm_compute in fst (cut 10 csv_text).
Definition csv_body : list Z := match snd (cut 10 csv_text) with Some r => r | None => [] end.
Lemma csv_cut : eqs (fst (cut 10 csv_text)) csv_header = true /\ match snd (cut 10 csv_text) with Some _ => True | None => False end.
Proof. split; vm_compute; [reflexivity|exact I]. Qed.
Lemma csv_split : csv_text = csv_header ++ 10 :: csv_body.
Proof.
  destruct csv_cut as [A B]. unfold csv_body. destruct (cut 10 csv_text) as [h [r|]] eqn:C; cbn [fst snd] in *; [|contradiction].
  apply eqs_spec in A. subst h. apply cut_some in C. exact (proj1 C).
Qed.
Lemma csv_recognized : file_rec csv_rec (Z.to_nat 20000) csv_body = Some csv_rows.
Proof. vm_compute. reflexivity. Qed.
Lemma csv_shipped : csv_file 1022 csv_text csv_rows.
Proof.
  exists csv_header, csv_body. split; [split; [|vm_compute; discriminate]; vm_compute; repeat (apply Forall_cons; [split; discriminate|]); apply Forall_nil|].
  split; [exists (skipn 19 csv_header); vm_compute; reflexivity|]. split; [exact csv_split|].
  exact (file_rec_spec _ _ _ csv_rec_spec _ _ _ csv_recognized).
Qed.
