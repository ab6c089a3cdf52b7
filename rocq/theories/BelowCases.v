(** Cases: domains below others. *)
From Verif Require Import Base Uenv DataTypes SpecUtf8 SpecNfc SpecLookup SpecUnicode SpecBelow Lookup Api Ucd UcdProofs.

(** "a", an ideographic full stop and capital "u with two dots"; its A-label in capitals. *)
Lemma case_below : nfc_ok ucd /\ c_string [97;227;128;130;195;156] /\ c_string [120;110;45;45;84;68;65] /\
  lookup_u8 ucd [97;227;128;130;195;156] 0 = Ok [97;46;120;110;45;45;116;100;97] /\ lookup_u8 ucd [120;110;45;45;84;68;65] IDN2_TRANSITIONAL = Ok [120;110;45;45;116;100;97] /\
  unicode [97;46;120;110;45;45;116;100;97] = Ok [97;46;252] /\ unicode [120;110;45;45;116;100;97] = Ok [252] /\
  below [97;46;120;110;45;45;116;100;97] [120;110;45;45;116;100;97] /\ below [97;46;252] [252] /\ ~ below [97;227;128;130;195;156] [120;110;45;45;84;68;65].
Proof.
  split; [exact ucd_nfc_ok|]. split; [repeat constructor; lia|]. split; [repeat constructor; lia|]. split; [vm_compute; reflexivity|]. split; [vm_compute; reflexivity|].
  split; [vm_compute; reflexivity|]. split; [vm_compute; reflexivity|]. split; [now exists [97]|]. split; [now exists [97]|].
  intros (p & E). apply (f_equal (@length Z)) in E. rewrite app_length in E. cbn [length] in E. lia.
Qed.
(** "u with two dots" and an exclamation mark, without the A-label check. *)
Lemma parents_unchecked : exists src r s, c_string src /\ lookup_u8 ucd src IDN2_NO_ALABEL_ROUNDTRIP = Ok r /\ below r s /\ lookup_u8 ucd s IDN2_NO_ALABEL_ROUNDTRIP <> Ok s.
Proof.
  exists [97;46;195;188;33], [97;46;120;110;45;45;33;45;100;104;97], [120;110;45;45;33;45;100;104;97]. split; [repeat constructor; lia|]. split; [vm_compute; reflexivity|].
  split; [now exists [97]|]. vm_compute. discriminate.
Qed.
