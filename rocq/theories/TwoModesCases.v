(** Names that the one way of looking up accepts and the other does not. *)
From Verif Require Import Base PunyBase Uenv DataTypes SpecUtf8 SpecTables SpecLabel SpecNfc SpecLookup SpecToAscii Utf8 Utf8Proofs Lookup MapProofs LookupIdem LookupExamples ToAsciiProofs Ucd UcdProofs SpecTwoModes TwoModes.

Lemma unmarked : ascii_unmarked ucd.
Proof.
  assert (A : forallb (fun c => negb (ue_mark ucd c)) (zrange 128) = true) by (vm_compute; reflexivity).
  intros c H. rewrite forallb_forall in A. specialize (A c (zrange_in c 128 H)). now destruct (ue_mark ucd c).
Qed.
Lemma plain64 : plain_flags IDN2_NO_TR46.
Proof. split; [|split; reflexivity]. unfold bad_flags. cbn. intuition discriminate. Qed.
Lemma tr46_0 : tr46_flags 0 /\ tr46_flags IDN2_USE_STD3_ASCII_RULES.
Proof. split; (split; [|repeat split; reflexivity]); unfold bad_flags; cbn; intuition discriminate. Qed.
(** "r3---sn", "-a". *)
Lemma hyphens_wrong : exists s t r, c_string s /\ c_string t /\ lookup_u8 ucd s IDN2_NO_TR46 = Ok s /\ lookup_u8 ucd s 0 = Fail IDN2_2HYPHEN /\
  lookup_u8 ucd t IDN2_NO_TR46 = Ok r /\ lookup_u8 ucd t 0 = Fail IDN2_HYPHEN_STARTEND.
Proof.
  exists [114; 51; 45; 45; 45; 115; 110], [45; 97], [45; 97]. split; [repeat constructor; lia|]. split; [repeat constructor; lia|]. repeat split; vm_compute; reflexivity.
Qed.
(** "XN--A". *)
Lemma upper_wrong : exists s, c_string s /\ upper_ace s /\ lookup_u8 ucd s IDN2_NO_TR46 = Ok s /\ exists rc, lookup_u8 ucd s 0 = Fail rc.
Proof.
  exists [88; 78; 45; 45; 65]. split; [repeat constructor; lia|]. split; [exists 88, 78, [65]; repeat split; auto; intros (X & _); discriminate X|]. split; [vm_compute; reflexivity|]. eexists. vm_compute. reflexivity.
Qed.
(** An underscore beside u with diaeresis. *)
Lemma mixed_wrong : exists s r, c_string s /\ utf8 [252; 95] s /\ uts46_map false false [252; 95] = [252; 95] /\ ue_nfc ucd [252; 95] = Some [252; 95] /\ lookup_u8 ucd s 0 = Ok r /\ lookup_u8 ucd s IDN2_NO_TR46 = Fail IDN2_DISALLOWED.
Proof.
  eexists [0xC3; 0xBC; 95], _. split; [repeat constructor; lia|]. split; [apply u8_to_u32_iff; [repeat constructor; lia|vm_compute; reflexivity]|]. repeat split; vm_compute; reflexivity.
Qed.
Lemma fine_plain : forall s, ~ xn s -> ok_2hyphen s -> ok_hyphen_startend s -> hyphens_fine s.
Proof. intros s X A B p AP. destruct AP as [e p E _|_]; [exfalso; apply X; now exists e|auto]. Qed.
Definition low_b : list Z := [98; 252; 99; 104; 101; 114].
Definition low_b8 : list Z := [98; 0xC3; 0xBC; 99; 104; 101; 114].
Definition bcd_b : list Z := [66; 99; 100; 46] ++ low_b.
Definition bcd_b8 : list Z := [66; 99; 100; 46] ++ low_b8.
Definition ace_b : list Z := [120; 110; 45; 45; 98; 99; 104; 101; 114; 45; 107; 118; 97].
Definition upp_b8 : list Z := [66; 0xC3; 0x9C; 67; 72; 69; 82].
Lemma fine_b : Forall hyphens_fine [[66; 99; 100]; low_b].
Proof.
  constructor; [|constructor; [|constructor]]; apply fine_plain.
  - intros (t & H). discriminate H.
  - intros (a & b & r & H). discriminate H.
  - split; intros r H; [discriminate H|]. destruct r as [|x [|y [|z [|w r]]]]; discriminate H.
  - intros (t & H). discriminate H.
  - intros (a & b & r & H). discriminate H.
  - split; intros r H; [discriminate H|]. do 8 (destruct r as [|? r]; [discriminate H|]). discriminate H.
Qed.
Lemma std3_b : Forall (fun c => ~ is_std3 c) (map lower bcd_b).
Proof.
  assert (A : forallb (fun c => match status_of c with Std3Valid | Std3Mapped => false | _ => true end) (map lower bcd_b) = true) by (vm_compute; reflexivity).
  rewrite forallb_forall in A. apply Forall_forall. intros c I. specialize (A c I). unfold is_std3. destruct (status_of c); intros [H|H]; congruence.
Qed.
Lemma two_modes_case : nfc_ok ucd /\ ascii_unmarked ucd /\ plain_flags IDN2_NO_TR46 /\ tr46_flags 0 /\ c_string bcd_b8 /\ zlen bcd_b8 < two64 /\
  utf8 bcd_b bcd_b8 /\ dotted [[66; 99; 100]; low_b] bcd_b /\ Forall (fun s => ~ upper_ace s) [[66; 99; 100]; low_b] /\ Forall hyphens_fine [[66; 99; 100]; low_b] /\
  lookup_u8 ucd bcd_b8 IDN2_NO_TR46 = Ok ([66; 99; 100; 46] ++ ace_b) /\ lookup_u8 ucd bcd_b8 0 = Ok ([98; 99; 100; 46] ++ ace_b).
Proof.
  split; [exact ucd_nfc_ok|]. split; [exact unmarked|]. split; [exact plain64|]. split; [exact (proj1 tr46_0)|]. split; [repeat constructor; lia|]. split; [reflexivity|].
  split; [apply u8_to_u32_iff; [repeat constructor; lia|vm_compute; reflexivity]|]. split; [split; [discriminate|]; split; [repeat constructor; cbn; intuition discriminate|reflexivity]|].
  split; [constructor; [|constructor; [|constructor]]; intros (a & b & t & H & _); discriminate H|]. split; [exact fine_b|]. split; vm_compute; reflexivity.
Qed.
Lemma prepared_case : c_string upp_b8 /\ prepared ucd IDN2_USE_STD3_ASCII_RULES upp_b8 low_b /\ utf8 low_b low_b8 /\ dotted [low_b] low_b /\ Forall (fun c => ~ (65 <= c <= 90)) low_b /\
  Forall (fun c => ~ is_std3 c) low_b /\ lookup_u8 ucd low_b8 IDN2_NO_TR46 = Ok ace_b /\ lookup_u8 ucd upp_b8 IDN2_USE_STD3_ASCII_RULES = Ok ace_b /\ lookup_u8 ucd upp_b8 IDN2_NO_TR46 = Fail IDN2_DISALLOWED.
Proof.
  split; [repeat constructor; lia|]. split.
  { exists [66; 0xDC; 67; 72; 69; 82]. split; [apply u8_to_u32_iff; [repeat constructor; lia|vm_compute; reflexivity]|]. split.
    - intros X. apply disallowedb_iff in X. vm_compute in X. discriminate X.
    - split; [vm_compute; reflexivity|vm_compute; reflexivity]. }
  split; [apply u8_to_u32_iff; [repeat constructor; lia|vm_compute; reflexivity]|]. split; [split; [discriminate|]; split; [repeat constructor; cbn; intuition discriminate|reflexivity]|].
  split; [repeat constructor; lia|]. split; [exact (proj2 (proj1 (Forall_app _ [98; 99; 100; 46] low_b) std3_b))|]. repeat split; vm_compute; reflexivity.
Qed.
