(** Cases: looking up a result again. *)
From Verif Require Import Base Uenv DataTypes SpecUtf8 SpecTables SpecLabel SpecNfc SpecLookup SpecPuny SpecToAscii SpecUnicode SpecTwoModes Lookup LookupIdem Compose PunyBase PunyDet RegGap Ucd UcdProofs LookupExamples SpecAgain Again.

(** "a_b" *)
Lemma std3_other : exists s r', c_string s /\ lookup_u8 ucd s 0 = Ok s /\ lookup_u8 ucd s IDN2_USE_STD3_ASCII_RULES = Ok r' /\ r' <> s.
Proof.
  exists [97;95;98], [97;98]. split; [repeat constructor; lia|]. split; [vm_compute; reflexivity|]. split; [vm_compute; reflexivity | discriminate].
Qed.
(** A snowman. *)
Lemma transitional_refused : exists s r, c_string s /\ lookup_u8 ucd s IDN2_TRANSITIONAL = Ok r /\ lookup_u8 ucd r 0 = Fail IDN2_DISALLOWED.
Proof.
  exists [226;152;131]. eexists. split; [repeat constructor; lia|]. split; [vm_compute; reflexivity|]. vm_compute. reflexivity.
Qed.
(** u with two dots, underscore. *)
Lemma plain_refused : exists s r, c_string s /\ lookup_u8 ucd s 0 = Ok r /\ lookup_u8 ucd r IDN2_NO_TR46 = Fail IDN2_DISALLOWED.
Proof.
  exists [195;188;95]. eexists. split; [repeat constructor; lia|]. split; [vm_compute; reflexivity|]. vm_compute. reflexivity.
Qed.
(** "u with two dots", its A-label, and all flags. *)
Lemma tda_free : std3_free [120;110;45;45;116;100;97].
Proof.
  assert (V : forall c, lower_or_digit c \/ c = 45 \/ c = 46 -> ~ is_std3 c).
  { intros c H X. pose proof (lower_digit_valid c H) as Y. destruct X as [X|X]; rewrite Y in X; discriminate X. }
  split; [repeat (apply Forall_cons; [apply V; unfold lower_or_digit; lia|]); constructor|].
  intros ls s p D I AP. assert (ls = [[120;110;45;45;116;100;97]]) as ->.
  { apply (dotted_fun _ _ _ D). apply dotted_one. cbn. intuition lia. }
  destruct I as [<-|[]]. destruct AP as [e p E DE|N].
  - unfold ace in E. injection E as <-. destruct DE as (_ & RD & _).
    assert (p = [252]) as ->.
    { apply (rfc_decodes_det [116;100;97]); [exact RD|]. apply encoded_decodes; [repeat constructor; unfold scalar; lia | vm_compute; reflexivity]. }
    constructor; [|constructor]. intros [X|X]; vm_compute in X; discriminate X.
  - elim N. now exists [116;100;97].
Qed.
Lemma case_again : nfc_ok ucd /\ c_string [195;156] /\ lookup_u8 ucd [195;156] 0 = Ok [120;110;45;45;116;100;97] /\
  no_stricter 0 (Z.lor IDN2_TRANSITIONAL IDN2_USE_STD3_ASCII_RULES) [120;110;45;45;116;100;97] /\ ~ bad_flags (Z.lor IDN2_TRANSITIONAL IDN2_USE_STD3_ASCII_RULES) /\
  std3_free [120;110;45;45;116;100;97] /\ tr46_flags 0 /\ plain_flags IDN2_NO_TR46 /\ ~ bad_flags (Z.lor IDN2_NO_TR46 IDN2_NO_ALABEL_ROUNDTRIP).
Proof.
  assert (B : forall f, (opt_no_tr46 f && (opt_transitional f || opt_nontransitional f)) || (opt_transitional f && opt_nontransitional f) || (opt_roundtrip f && opt_no_roundtrip f) = false -> ~ bad_flags f).
  { intros f H. unfold bad_flags. destruct (opt_no_tr46 f), (opt_transitional f), (opt_nontransitional f), (opt_roundtrip f), (opt_no_roundtrip f); cbn in H; try discriminate H; intuition discriminate. }
  split; [exact ucd_nfc_ok|]. split; [repeat constructor; lia|]. split; [vm_compute; reflexivity|]. split; [split; [discriminate | intros _; right; exact tda_free]|].
  split; [now apply B|]. split; [exact tda_free|]. split; [split; [now apply B | now repeat split]|]. split; [split; [now apply B | now repeat split] | now apply B].
Qed.
