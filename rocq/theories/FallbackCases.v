(** Names on which the fallback of the manual goes the second way. *)
From Verif Require Import Base PunyBase Uenv DataTypes SpecUtf8 SpecTables SpecBidi SpecLabel SpecNfc SpecLookup SpecToAscii SpecRefusal Lookup Utf8 Utf8Proofs LookupTr46 ToAsciiProofs RefusalExamples Ucd UcdProofs Api Fallback SpecFallback FallbackProofs.

Definition coffee : list Z := [0xE2; 0x98; 0x95].
Definition fass : list Z := [102; 97; 0xC3; 0x9F].
Definition alef_a : list Z := [0xD7; 0x90; 97].
Definition ace_coffee : list Z := [120; 110; 45; 45; 53; 51; 104].
Definition ace_fass : list Z := [120; 110; 45; 45; 102; 97; 45; 104; 105; 97].
Definition ace_alef_a : list Z := [120; 110; 45; 45; 97; 45; 122; 104; 99].

Lemma api_ok : forall U s q r, fallback U s = Ok r -> to_ascii_fallback U (Some s) (Some q) = Ok (IDN2_OK, Some (Some r)).
Proof. intros U s q r H. rewrite fallback_api, H. reflexivity. Qed.
Lemma api_fail : forall U s o rc, fallback U s = Fail rc -> to_ascii_fallback U (Some s) o = Ok (rc, o).
Proof. intros U s o rc H. rewrite fallback_api, H. reflexivity. Qed.

(** How one label is treated depends on another. *)
Lemma compose_fails : exists a b ra rb r, c_string a /\ c_string b /\
  to_ascii_fallback ucd (Some a) (Some None) = Ok (IDN2_OK, Some (Some ra)) /\ to_ascii_fallback ucd (Some b) (Some None) = Ok (IDN2_OK, Some (Some rb)) /\
  to_ascii_fallback ucd (Some (a ++ 46 :: b)) (Some None) = Ok (IDN2_OK, Some (Some r)) /\ r <> ra ++ 46 :: rb.
Proof.
  exists fass, coffee, ace_fass, ace_coffee, ([102; 97; 115; 115; 46] ++ ace_coffee). split; [repeat constructor; lia|]. split; [repeat constructor; lia|].
  split; [apply api_ok; vm_compute; reflexivity|]. split; [apply api_ok; vm_compute; reflexivity|]. split; [apply api_ok; vm_compute; reflexivity|]. discriminate.
Qed.
(** Whether a name is accepted depends on the order of its labels, and the labels
    of an accepted name may violate other rules. *)
Lemma order_matters : exists a b r, c_string a /\ c_string b /\
  to_ascii_fallback ucd (Some (a ++ 46 :: b)) (Some None) = Ok (IDN2_OK, Some (Some r)) /\
  to_ascii_fallback ucd (Some (b ++ 46 :: a)) (Some None) = Ok (IDN2_BIDI, Some None) /\ to_ascii_fallback ucd (Some b) (Some None) = Ok (IDN2_BIDI, Some None).
Proof.
  exists coffee, alef_a, (ace_coffee ++ 46 :: ace_alef_a). split; [repeat constructor; lia|]. split; [repeat constructor; lia|].
  split; [apply api_ok; vm_compute; reflexivity|]. split; apply api_fail; vm_compute; reflexivity.
Qed.
Lemma one_label : exists s r, c_string s /\ ~ In 46 s /\ to_ascii_fallback ucd (Some s) (Some None) = Ok (IDN2_OK, Some (Some r)) /\
  forall l, utf8 l s -> ~ ok_bidi ucd l.
Proof.
  exists (alef_a ++ coffee), [120; 110; 45; 45; 97; 45; 122; 104; 99; 56; 57; 56; 118]. split; [repeat constructor; lia|]. split; [cbn; intuition discriminate|].
  split; [apply api_ok; vm_compute; reflexivity|]. intros l Hu.
  assert (l = [0x5D0; 97; 0x2615]) as -> by (apply u8_to_u32_complete in Hu; vm_compute in Hu; injection Hu as <-; reflexivity).
  assert (BA : ue_bidi ucd 0x5D0 = UC_BIDI_R) by (vm_compute; reflexivity). assert (BL : ue_bidi ucd 97 = UC_BIDI_L) by (vm_compute; reflexivity).
  intros [H|(_ & H & _)].
  - apply H. apply Exists_cons_hd. unfold class_in. rewrite BA. now left.
  - unfold rule2 in H. assert (X : rtl_start (ue_bidi ucd) [0x5D0; 97; 0x2615]) by (exists 0x5D0, [97; 0x2615]; split; [reflexivity|]; unfold class_in; rewrite BA; now left).
    specialize (H X). apply Forall_inv_tail, Forall_inv in H. unfold class_in in H. rewrite BL in H. cbn [In] in H. intuition discriminate.
Qed.
Lemma both_ways : nfc_ok ucd /\ c_string coffee /\ zlen coffee < two64 /\ utf8 [0x2615] coffee /\ Forall (fun c => status_of c <> Deviation) [0x2615] /\
  ue_nfc ucd (uts46_map false false [0x2615]) = Some [0x2615] /\ second_chance ucd coffee /\ fallback_accepts ucd coffee ace_coffee /\
  to_ascii_fallback ucd (Some coffee) (Some None) = Ok (IDN2_OK, Some (Some ace_coffee)) /\ lookup_u8 ucd coffee IDN2_TRANSITIONAL = Ok ace_coffee /\
  to_ascii_fallback ucd (Some ace_coffee) (Some None) = Ok (IDN2_OK, Some (Some ace_coffee)) /\
  fallback_refuses ucd alef_a IDN2_BIDI /\ to_ascii_fallback ucd (Some alef_a) (Some None) = Ok (IDN2_BIDI, Some None).
Proof.
  assert (C : c_string coffee) by (repeat constructor; lia). assert (L : zlen coffee < two64) by reflexivity. assert (C' : c_string alef_a) by (repeat constructor; lia). assert (L' : zlen alef_a < two64) by reflexivity.
  assert (Hu : utf8 [0x2615] coffee) by (apply u8_to_u32_iff; [repeat constructor; lia|vm_compute; reflexivity]).
  assert (F : fallback ucd coffee = Ok ace_coffee) by (vm_compute; reflexivity).
  assert (A : fallback_accepts ucd coffee ace_coffee) by (apply fallback_exact; [exact ucd_nfc_ok|exact C|exact L|exact F]).
  assert (G : fallback ucd alef_a = Fail IDN2_BIDI) by (vm_compute; reflexivity).
  split; [exact ucd_nfc_ok|]. split; [exact C|]. split; [exact L|]. split; [exact Hu|]. split; [constructor; [vm_compute; discriminate|constructor]|].
  split; [vm_compute; reflexivity|]. split.
  { destruct A as [A|(A & _)]; [|exact A]. exfalso. apply lookup_exact in A; [|exact ucd_nfc_ok|exact C|exact L]. vm_compute in A. discriminate A. }
  split; [exact A|]. split; [now apply api_ok|]. split; [vm_compute; reflexivity|]. split; [apply api_ok; vm_compute; reflexivity|].
  split; [|now apply api_fail]. apply fallback_refusal; [exact ucd_nfc_ok|exact C'|exact L'|exact G].
Qed.
