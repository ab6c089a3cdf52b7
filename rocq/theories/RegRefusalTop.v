(** Registration: acceptance and refusal at the entry point, and concrete cases. *)
From Verif Require Import Base PunyBase Uenv DataTypes SpecUtf8 SpecPuny SpecTables SpecLabel SpecNfc SpecLookup SpecRegister SpecApi Idna Puny
  Lookup Api ApiProofs Register RegisterProofs RegisterTop SpecToAscii SpecRefusal SpecRegRefusal RefusalProofs RegRefusal Ucd UcdProofs LookupExamples ApiExamples.

Section P.
  Variables (U : uenv) (f : Z) (u a : option (list Z)).
  Hypothesis (K : nfc_ok U).
  Hypothesis (Cu : forall s, u = Some s -> c_string s).
  Hypothesis (Ca : forall s, a = Some s -> c_string s).
  Lemma refused_some : forall rc, registration_refused U f u a rc -> u <> None \/ a <> None.
  Proof. intros rc H. inversion H; subst; (left; congruence) || (right; congruence). Qed.
  Lemma registers_some : forall r, registers U f u a r -> u <> None \/ a <> None.
  Proof. intros r H. inversion H; subst; (left; congruence) || (right; congruence). Qed.
  Lemma registration_exact : forall q r, register_u8 U u a (Some q) f = Ok (IDN2_OK, Some (Some r)) <-> registers U f u a r.
  Proof.
    intros q r. destruct a as [x|].
    - pose proof (Ca x eq_refl) as C. unfold register_u8. rewrite <- (reg_a_exact U K u x f r C).
      apply RegisterTop.deliver_ok. intros rc. now apply reg_a_nz.
    - destruct u as [x|].
      + pose proof (Cu x eq_refl) as C. unfold register_u8. rewrite <- (reg_u_exact U K x f r C). apply RegisterTop.deliver_ok. intros rc. now apply reg_u_nz.
      + split; [cbn [register_u8 store]; discriminate|]. intros H. inversion H.
  Qed.
  Lemma registration_explained : forall o rc o', register_u8 U u a o f = Ok (rc, o') -> rc <> IDN2_OK -> registration_refused U f u a rc.
  Proof.
    intros o rc o' H N. destruct a as [x|].
    - pose proof (Ca x eq_refl) as C. unfold register_u8 in H. apply ApiProofs.deliver_ok in H. destruct H as [(r & _ & E & _)|(H & _)]; [congruence|].
      now apply (reg_a_refused U u x f C).
    - destruct u as [x|].
      + pose proof (Cu x eq_refl) as C. unfold register_u8 in H. apply ApiProofs.deliver_ok in H. destruct H as [(r & _ & E & _)|(H & _)]; [congruence|].
        now apply (reg_u_refused U K x f C).
      + cbn [register_u8] in H. congruence.
  Qed.
  Lemma registration_refusal : forall o rc, registration_refused U f u a rc ->
    exists rc', register_u8 U u a o f = Ok (rc', o) /\ rc' <> IDN2_OK /\ (rc' = rc \/ ((exists s, u = Some s /\ a = None /\ 1000000000 < zlen s) /\ In rc room_codes /\ In rc' room_codes)).
  Proof.
    intros o rc H. destruct a as [x|].
    - pose proof (Ca x eq_refl) as C. apply (reg_a_refused U u x f C) in H. destruct H as (rc' & E & M). exists rc'. unfold register_u8. rewrite E. cbn [deliver].
      split; [reflexivity|]. split; [exact (reg_a_nz U u x rc' K C E)|destruct M as [M|([] & _)]; left; congruence].
    - destruct u as [x|]; [|inversion H].
      pose proof (Cu x eq_refl) as C. apply (reg_u_refused U K x f C) in H. destruct H as (rc' & E & M). exists rc'. unfold register_u8. rewrite E. cbn [deliver].
      split; [reflexivity|]. split; [exact (reg_u_nz U x f rc' K C E)|destruct M as [M|(L & M)]; [left; congruence|right; split; [exists x; auto|exact M]]].
  Qed.
  Lemma registration_unique : forall c d, registration_refused U f u a c -> registration_refused U f u a d -> c = d \/ ((exists s, u = Some s /\ a = None /\ 1000000000 < zlen s) /\ In c room_codes /\ In d room_codes).
  Proof.
    intros c d H G. destruct (registration_refusal None c H) as (x & X & _ & MX). destruct (registration_refusal None d G) as (y & Y & _ & MY).
    assert (x = y) by congruence. subst y. destruct MX as [->|(A0 & A & B)]; destruct MY as [->|(A0' & A' & B')]; auto.
  Qed.
  Lemma registration_refused_exact : (forall s, u = Some s -> a = None -> zlen s <= 1000000000) -> forall o rc,
    (rc <> IDN2_OK /\ register_u8 U u a o f = Ok (rc, o)) <-> registration_refused U f u a rc.
  Proof.
    intros L o rc. split; [intros (N & H); now apply (registration_explained o rc o)|]. intros H. destruct (registration_refusal o rc H) as (x & X & N & [->|((s & E1 & E2 & E3) & _)]); [auto|].
    specialize (L s E1 E2). lia.
  Qed.
End P.
  Lemma registration_partition : forall U f u a, nfc_ok U -> (forall s, u = Some s -> c_string s) -> (forall s, a = Some s -> c_string s) -> u <> None \/ a <> None ->
    ((exists r, registers U f u a r) \/ (exists rc, registration_refused U f u a rc)) /\ ~ ((exists r, registers U f u a r) /\ (exists rc, registration_refused U f u a rc)).
  Proof.
    intros U f u a K Cu Ca N. split.
    - pose proof (register_codes U u a (Some None) f K Cu Ca) as X. destruct (register_u8 U u a (Some None) f) as [[rc o']| | |] eqn:E; try contradiction.
      destruct X as [(-> & _)|(I & _)].
      + left. destruct a as [x|].
        * pose proof E as E'. unfold register_u8 in E'. apply ApiProofs.deliver_ok in E'. destruct E' as [(r & _ & _ & ->)|(G & _)]; [exists r; now apply (registration_exact U f _ _ K Cu Ca None)|].
          exfalso. exact (reg_a_nz U u x _ K (Ca x eq_refl) G eq_refl).
        * destruct u as [x|]; [|destruct N; congruence].
          pose proof E as E'. unfold register_u8 in E'. apply ApiProofs.deliver_ok in E'. destruct E' as [(r & _ & _ & ->)|(G & _)]; [exists r; now apply (registration_exact U f _ _ K Cu Ca None)|].
          exfalso. exact (reg_u_nz U x f _ K (Cu x eq_refl) G eq_refl).
      + right. exists rc. apply (registration_explained U f u a K Cu Ca (Some None) rc o' E). now apply errors_nonzero.
    - intros ((r & H) & (rc & G)). apply (registration_exact U f u a K Cu Ca None) in H. destruct (registration_refusal U f u a K Cu Ca (Some None) rc G) as (x & X & NX & _). pose proof (eq_trans (eq_sym H) X) as Y. discriminate Y.
  Qed.

Definition y64 : list Z := repeat 121 64.
Definition xnTda : list Z := [120;110;45;45;84;68;65].
Lemma case_registration : nfc_ok ucd /\ c_string xnTda /\ c_string [0xC3; 0xBC; 45] /\ c_string [101; 204; 129] /\
  register_u8 ucd (Some ue8) None (Some None) 0 = Ok (IDN2_OK, Some (Some xn_ue)) /\
  register_u8 ucd (Some y64) None (Some None) 0 = Ok (IDN2_TOO_BIG_LABEL, Some None) /\
  register_u8 ucd (Some [0xC3]) None (Some None) 0 = Ok (IDN2_ENCODING_ERROR, Some None) /\
  register_u8 ucd (Some [0xC3; 0xBC; 45]) None (Some None) 0 = Ok (IDN2_HYPHEN_STARTEND, Some None) /\
  register_u8 ucd (Some [0xC3; 0xBC; 85]) None (Some None) 0 = Ok (IDN2_DISALLOWED, Some None) /\
  register_u8 ucd (Some [101; 204; 129]) None (Some None) 0 = Ok (IDN2_NOT_NFC, Some None) /\
  register_u8 ucd None (Some [97; 98; 99]) (Some None) 0 = Ok (IDN2_INVALID_ALABEL, Some None) /\
  register_u8 ucd None (Some [120; 110; 45; 45; 33]) (Some None) 0 = Ok (IDN2_PUNYCODE_BAD_INPUT, Some None) /\
  register_u8 ucd None (Some xnTda) (Some None) 0 = Ok (IDN2_UALABEL_MISMATCH, Some None).
Proof.
  split; [exact ucd_nfc_ok|]. do 3 (split; [unfold c_string; in_range_list|]). vm_compute. repeat split.
Qed.
