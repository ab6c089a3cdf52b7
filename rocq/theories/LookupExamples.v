(** Concrete cases for PropLookup.v. *)
From Verif Require Import Base Uenv DataTypes DataTr46 SpecUtf8 SpecPuny SpecTables SpecLabel SpecNfc SpecLookup
  Utf8 Utf8Proofs Lookup MapProofs LookupTr46 LookupIdem Ucd UcdProofs.
Transparent status_of mapping_of.

Definition buecher := [66;195;188;99;104;101;114;46;101;120].      (* "Bücher.ex" *)
Definition xn_buecher := [120;110;45;45;98;99;104;101;114;45;107;118;97;46;101;120].
Definition strasse := [115;116;114;97;195;159;101].
Definition xn_strasse := [120;110;45;45;115;116;114;97;101;45;111;113;97].

Ltac in_range_list := repeat (apply Forall_cons; [lia|]); apply Forall_nil.
Lemma buecher_c : c_string buecher. Proof. unfold c_string, buecher. in_range_list. Qed.
Lemma strasse_c : c_string strasse. Proof. unfold c_string, strasse. in_range_list. Qed.
Lemma case_buecher : nfc_ok ucd /\ c_string buecher /\ lookup_u8 ucd buecher 0 = Ok xn_buecher.
Proof. split; [exact ucd_nfc_ok|]. split; [exact buecher_c|]. vm_compute. reflexivity. Qed.
Lemma case_buecher_raw : nfc_ok ucd /\ c_string buecher /\ lookup_u8 ucd buecher IDN2_NO_TR46 = Fail IDN2_DISALLOWED.
Proof. split; [exact ucd_nfc_ok|]. split; [exact buecher_c|]. vm_compute. reflexivity. Qed.
Lemma case_strasse : nfc_ok ucd /\ c_string strasse /\ opt_no_roundtrip IDN2_TRANSITIONAL = false /\
  lookup_u8 ucd strasse IDN2_TRANSITIONAL = Ok [115;116;114;97;115;115;101] /\ lookup_u8 ucd strasse 0 = Ok xn_strasse.
Proof. split; [exact ucd_nfc_ok|]. split; [exact strasse_c|]. vm_compute. auto. Qed.
Lemma not_bad : forall f, opt_transitional f = false -> opt_no_tr46 f = false \/ opt_nontransitional f = false -> opt_roundtrip f = false -> ~ bad_flags f.
Proof. intros f T N R. unfold bad_flags. rewrite T, R. intuition congruence. Qed.
Lemma no_roundtrip_refuted : exists src flags r, nfc_ok ucd /\ c_string src /\ zlen src < two64 /\ ~ bad_flags flags /\
  opt_no_roundtrip flags = true /\ lookup_u8 ucd src flags = Ok r /\ lookup_u8 ucd r flags = Fail IDN2_PUNYCODE_BAD_INPUT.
Proof.
  exists [195;188;33], 128, [120;110;45;45;33;45;100;104;97]. split; [exact ucd_nfc_ok|]. split; [unfold c_string; in_range_list|].
  split; [reflexivity|]. split; [apply not_bad; auto|]. vm_compute. auto.
Qed.
Lemma case_passthrough : ascii_string [65;46;66;95] /\ ~ bad_flags IDN2_NO_TR46 /\ opt_no_tr46 IDN2_NO_TR46 = true /\
  (forall ls l, dotted ls [65;46;66;95] -> In l ls -> ~ xn l) /\ lookup_u8 ucd [65;46;66;95] IDN2_NO_TR46 = Ok [65;46;66;95] /\
  lookup_u8 ucd (repeat 65 64) IDN2_NO_TR46 = Fail IDN2_TOO_BIG_LABEL.
Proof.
  split; [unfold ascii_string; in_range_list|]. split; [apply not_bad; auto|]. split; [reflexivity|]. split; [|vm_compute; auto].
  intros ls l D I. apply dotted_iff in D. subst ls. cbn in I. intros (t & ->). destruct I as [I|[I|[]]]; discriminate.
Qed.
Lemma ascii_altered : exists s r, nfc_ok ucd /\ ascii_string s /\ lookup_u8 ucd s 0 = Ok r /\ r <> s.
Proof.
  exists [65], [97]. split; [exact ucd_nfc_ok|]. split; [unfold ascii_string; in_range_list|]. split; [vm_compute; reflexivity|discriminate].
Qed.
Lemma case_lowered : nfc_ok ucd /\ ascii_string [65;46;66;95] /\ lookup_u8 ucd [65;46;66;95] 0 = Ok [97;46;98;95].
Proof. split; [exact ucd_nfc_ok|]. split; [unfold ascii_string; in_range_list|]. vm_compute. reflexivity. Qed.
Lemma case_case : same_but_case [66;195;188;67] [98;195;188;99] /\ opt_no_tr46 0 = false /\
  lookup_u8 ucd [66;195;188;67] 0 = Ok [120;110;45;45;98;99;45;120;107;97].
Proof. split; [repeat (apply sbc_cons; [reflexivity|]); apply sbc_nil|]. split; [reflexivity|]. vm_compute. reflexivity. Qed.
Lemma case_dots : same_but_dots [252; 0x3002; 97] [252; 0xAD; 46; 97] /\ utf8 [252; 0x3002; 97] [195;188;227;128;130;97] /\
  utf8 [252; 0xAD; 46; 97] [195;188;194;173;46;97] /\ lookup_u8 ucd [195;188;227;128;130;97] 0 = Ok [120;110;45;45;116;100;97;46;97].
Proof.
  split.
  - apply sbd_keep. apply sbd_ignored_r; [vm_compute; reflexivity|]. apply sbd_stop; [unfold full_stop; auto|unfold full_stop; auto|]. apply sbd_keep, sbd_nil.
  - split; [apply u32_to_u8_iff; reflexivity|]. split; [apply u32_to_u8_iff; reflexivity|]. vm_compute. reflexivity.
Qed.
Lemma bad_flags_first : forall U src flags, bad_flags flags -> lookup_u8 U src flags = Fail IDN2_INVALID_FLAGS.
Proof. intros U src flags B. unfold lookup_u8. destruct (set_flags_spec flags) as [(_ & E)|(X & _)]; [now rewrite E|contradiction]. Qed.
Lemma case_flags : bad_flags 12 /\ ~ bad_flags 0 /\ lookup_u8 ucd [255] 12 = Fail IDN2_INVALID_FLAGS /\ lookup_u8 ucd [255] 0 = Fail IDN2_ENCODING_ERROR.
Proof. split; [left; split; reflexivity|]. split; [apply not_bad; auto|]. vm_compute. auto. Qed.
Lemma case_defaults : lookup_u8 ucd strasse 8 = Ok xn_strasse /\ lookup_u8 ucd strasse 2 = Ok xn_strasse /\
  lookup_u8 ucd strasse 16 = Ok xn_strasse /\ lookup_u8 ucd strasse 4 <> Ok xn_strasse /\
  opt_no_tr46 64 = true /\ opt_transitional 0 = false.
Proof. vm_compute. repeat split; discriminate. Qed.
Lemma case_nfc : lookup_u8 ucd [101;204;129] 0 = Ok [120;110;45;45;57;99;97] /\
  lookup_u8 ucd [101;204;129] (Z.lor IDN2_NO_TR46 IDN2_NFC_INPUT) = Ok [120;110;45;45;57;99;97] /\
  lookup_u8 ucd [101;204;129] IDN2_NO_TR46 = Fail IDN2_NOT_NFC.
Proof. vm_compute. auto. Qed.
Lemma case_mapping : uts46_map false false [0x2474; 0xDF; 0xAD; 65] = [40; 49; 41; 0xDF; 97] /\
  uts46_map true true [0x2474; 0xDF; 0xAD; 65; 95] = [115; 115; 97] /\
  lookup_u8 ucd [98;95] IDN2_USE_STD3_ASCII_RULES = Ok [98] /\ lookup_u8 ucd [194;128] 0 = Fail IDN2_DISALLOWED /\
  status_of 128 = Disallowed /\ utf8 [128] [194;128].
Proof. split; [vm_compute; reflexivity|]. split; [vm_compute; reflexivity|]. split; [vm_compute; reflexivity|]. split; [vm_compute; reflexivity|].
  split; [vm_compute; reflexivity|]. apply u32_to_u8_iff; reflexivity. Qed.
Lemma case_stable : uts46_map false false [0x2474; 0x1F88] = [40; 49; 41; 0x1F00; 0x3B9].
Proof. vm_compute. reflexivity. Qed.
Lemma case_accepted : (exists ds, dotted ds xn_buecher /\ In [120;110;45;45;98;99;104;101;114;45;107;118;97] ds) /\
  lookup_u8 ucd buecher 0 = Ok xn_buecher.
Proof.
  split; [|vm_compute; reflexivity]. exists [[120;110;45;45;98;99;104;101;114;45;107;118;97]; [101;120]]. split; [now apply dotted_iff|now left].
Qed.
Lemma case_upper : lookup_u8 ucd [65;46;195;156;66] 0 = Ok [97;46;120;110;45;45;98;45;100;104;97].
Proof. vm_compute. reflexivity. Qed.
Lemma case_codes : lookup_u8 ucd [104;105;45;45;195;188] IDN2_NO_TR46 = Fail IDN2_2HYPHEN /\ In IDN2_2HYPHEN lookup_errors /\
  ~ In IDN2_MALLOC lookup_errors /\ ~ In IDN2_DOT_IN_LABEL lookup_errors /\ ~ In IDN2_CONTEXTO lookup_errors.
Proof.
  split; [vm_compute; reflexivity|]. split; [unfold lookup_errors; cbn [In]; tauto|].
  repeat split; unfold lookup_errors; cbn [In]; intros I; repeat (destruct I as [I|I]; [discriminate I|]); destruct I.
Qed.
