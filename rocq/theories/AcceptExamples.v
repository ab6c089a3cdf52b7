(** Packaging for PropAccept.v. *)
From Verif Require Import Base PunyBase Uenv DataTypes SpecUtf8 SpecPuny SpecTables SpecBidi SpecContext SpecLabel SpecNfc
  SpecLookup SpecToAscii Puny PunyBase PunyExact Lookup Api ApiProofs MapProofs LookupTr46 LookupIdem LookupTop ToAsciiProofs FlagRel
  Ucd UcdProofs BaseTop LookupExamples ApiExamples.

Lemma encoding_unique : forall p e1 e2, Forall permitted p -> rfc_encodes p e1 -> rfc_encodes p e2 ->
  zlen e1 <= 109 -> zlen e2 <= 109 -> e1 = e2.
Proof.
  intros p e1 e2 P E1 E2 L1 L2.
  assert (Q : u32_list p) by (eapply Forall_impl; [|exact P]; unfold permitted, u32; cbv beta; lia).
  assert (X : forall e, rfc_encodes p e -> zlen e <= 109 -> puny_encode p 109 109 = Ok e) by (intros e E L; apply encode_iff; auto; lia).
  pose proof (X e1 E1 L1). pose proof (X e2 E2 L2). congruence.
Qed.
Lemma case_encode : u32_list [36; 32; 252] /\ Forall permitted [36; 32; 252] /\
  rfc_encodes [36; 32; 252] [36; 32; 45; 121; 107; 97] /\ ~ (exists e, rfc_encodes [252; 56000] e /\ zlen e <= 59 /\ Forall permitted [252; 56000]).
Proof.
  assert (Q : u32_list [36; 32; 252]) by (repeat (apply Forall_cons; [lia|]); apply Forall_nil).
  assert (E : puny_encode [36; 32; 252] 59 59 = Ok [36; 32; 45; 121; 107; 97]) by (vm_compute; reflexivity).
  apply encode_iff in E; [|exact Q|lia|lia]. destruct E as (E1 & E2 & _). split; [exact Q|]. split; [exact E1|]. split; [exact E2|].
  intros (e & _ & _ & P). apply Forall_inv_tail, Forall_inv in P. unfold permitted in P. lia.
Qed.

Lemma accepts_unique : forall U src f r1 r2, nfc_ok U -> c_string src -> zlen src < two64 ->
  accepts U f src r1 -> accepts U f src r2 -> r1 = r2.
Proof.
  intros U src f r1 r2 K C L A1 A2. apply lookup_exact in A1; auto. apply lookup_exact in A2; auto. congruence.
Qed.
Lemma refusal : forall U src f, nfc_ok U -> c_string src -> zlen src < two64 ->
  ((exists rc, lookup_u8 U src f = Fail rc) <-> forall r, ~ accepts U f src r).
Proof.
  intros U src f K C L. split.
  - intros (rc & E) r A. apply lookup_exact in A; auto. congruence.
  - intros N. pose proof (lookup_safe U src f K C L) as S. destruct (lookup_u8 U src f) as [r|rc| |] eqn:E; try contradiction.
    + exfalso. apply (N r). apply lookup_exact; auto.
    + eauto.
Qed.
Lemma api_exact : forall U src f old r, nfc_ok U -> c_string src -> zlen src < two64 ->
  (idn2_lookup_u8 U (Some src) (Some old) f = Ok (IDN2_OK, Some (Some r)) <-> accepts U f src r).
Proof.
  intros U src f old r K C L. rewrite <- lookup_exact by auto. unfold idn2_lookup_u8, deliver.
  pose proof (lookup_safe U src f K C L) as S. destruct (lookup_u8 U src f) as [r'|rc| |] eqn:E; try contradiction.
  - change (store (Some old) (Some r')) with (Some (Some r')). split; intros H.
    + assert (X : forall a b : list Z, Ok (IDN2_OK, Some (Some a)) = Ok (IDN2_OK, Some (Some b)) -> a = b) by (intros a b Y; congruence).
      apply X in H. rewrite H. reflexivity.
    + assert (r' = r) as -> by congruence. reflexivity.
  - split; intros H; [|discriminate]. exfalso. 
    pose proof (LookupCodes.lookup_codes U src f rc K C L E) as [(B & ->)|(B & I)]; [discriminate|].
    injection H as -> _. revert I. vm_compute. intuition discriminate.
Qed.
Lemma ucd_exact : forall src f r, c_string src -> zlen src < two64 -> (lookup_u8 ucd src f = Ok r <-> accepts ucd f src r).
Proof. intros src f r. apply lookup_exact. exact (proj1 case_buecher). Qed.

Lemma buecher_len : zlen buecher < two64. Proof. vm_compute. reflexivity. Qed.
Lemma case_accepts : accepts ucd 0 buecher xn_buecher /\ (forall r, ~ accepts ucd IDN2_NO_TR46 buecher r).
Proof.
  split.
  - apply ucd_exact; [exact buecher_c|exact buecher_len|]. exact (proj2 (proj2 case_buecher)).
  - apply refusal; [exact (proj1 case_buecher)|exact buecher_c|exact buecher_len|]. exists IDN2_DISALLOWED. exact (proj2 (proj2 case_buecher_raw)).
Qed.

Lemma case_no_roundtrip : nfc_ok ucd /\ ~ bad_flags 192 /\
  lookup_u8 ucd [120;110;45;45;116;100;65] 64 = Ok [120;110;45;45;116;100;97] /\
  lookup_u8 ucd [120;110;45;45;116;100;65] 192 = Ok [120;110;45;45;116;100;65] /\
  lookup_u8 ucd [120;110;45;45;97] 64 = Fail IDN2_DISALLOWED /\
  lookup_u8 ucd [120;110;45;45;97] 192 = Ok [120;110;45;45;97].
Proof.
  split; [exact (proj1 case_buecher)|]. split; [|repeat split; vm_compute; reflexivity].
  apply not_bad; vm_compute; auto.
Qed.
Lemma forall_not_dev : forall l, forallb (fun c => match status_of c with Deviation => false | _ => true end) l = true ->
  Forall (fun c => status_of c <> Deviation) l.
Proof. intros l H. rewrite forallb_forall in H. apply Forall_forall. intros c Hc E. specialize (H c Hc). cbv beta in H. rewrite E in H. discriminate. Qed.
Lemma forall_not_std3 : forall l, forallb (fun c => match status_of c with Std3Valid | Std3Mapped => false | _ => true end) l = true ->
  Forall (fun c => ~ is_std3 c) l.
Proof. intros l H. rewrite forallb_forall in H. apply Forall_forall. intros c Hc [E|E]; specialize (H c Hc); cbv beta in H; rewrite E in H; discriminate. Qed.
Lemma case_transitional : nfc_ok ucd /\ utf8 buecher4 buecher /\ Forall (fun c => status_of c <> Deviation) buecher4 /\
  ue_nfc ucd (uts46_map false false buecher4) = Some (uts46_map false false buecher4) /\
  Forall (fun c => status_of c <> Deviation) (uts46_map false false buecher4) /\
  lookup_u8 ucd buecher 0 = Ok xn_buecher /\ lookup_u8 ucd buecher IDN2_TRANSITIONAL = Ok xn_buecher /\
  lookup_u8 ucd strasse 0 <> lookup_u8 ucd strasse IDN2_TRANSITIONAL.
Proof.
  split; [exact (proj1 case_buecher)|]. split; [exact buecher_utf8|].
  split; [apply forall_not_dev; vm_compute; reflexivity|]. split; [vm_compute; reflexivity|].
  split; [apply forall_not_dev; vm_compute; reflexivity|]. repeat split; vm_compute; congruence.
Qed.
Lemma case_std3 : nfc_ok ucd /\ utf8 buecher4 buecher /\ Forall (fun c => ~ is_std3 c) buecher4 /\
  lookup_u8 ucd buecher 32 = Ok xn_buecher /\ lookup_u8 ucd buecher 0 = Ok xn_buecher /\
  lookup_u8 ucd [95;195;188] 32 = Ok [120;110;45;45;116;100;97] /\ lookup_u8 ucd [95;195;188] 0 = Ok [120;110;45;45;95;45;101;104;97].
Proof.
  split; [exact (proj1 case_buecher)|]. split; [exact buecher_utf8|]. split; [apply forall_not_std3; vm_compute; reflexivity|].
  repeat split; vm_compute; reflexivity.
Qed.
