(** IDN2_NFC_INPUT in the modes without TR46. *)
From Verif Require Import Base PunyBase Uenv DataTypes Tables SpecUtf8 SpecPuny SpecTables SpecBidi SpecContext SpecLabel SpecNfc
  SpecLookup SpecToAscii Puny PunyExact LookupProofs Utf8 Utf8Proofs Lookup MapProofs LookupTr46 LookupIdem LookupTop ToAsciiProofs FlagRel SpecNfcFlag Ucd UcdProofs LookupExamples.

Lemma qc_dec : forall ccc l last, qc_yes ccc last l \/ ~ qc_yes ccc last l.
Proof.
  intros ccc. induction l as [|c l IH]; intros last; cbn [qc_yes]; [now left|].
  assert (D : forall P Q R : Prop, (P \/ ~ P) -> (Q \/ ~ Q) -> (R \/ ~ R) -> (P /\ Q /\ R) \/ ~ (P /\ Q /\ R)) by tauto.
  apply D; [destruct (nfc_qc c); [right; discriminate|now left]| |apply IH].
  destruct (Z.eq_dec (ccc c) 0); [now left; left|]. destruct (Z_le_dec last (ccc c)); [now left; right|right; lia].
Qed.

Section Flag.
  Variables (U : uenv) (f g : Z).
  Hypotheses (K : nfc_ok U) (N1 : opt_nfc f = false) (N2 : opt_nfc g = true) (R : opt_no_roundtrip f = opt_no_roundtrip g).

  Lemma normal_same : forall p, ue_nfc U p = Some p -> normal_form U (opt_nfc g) p p.
  Proof. intros p H. unfold normal_form. rewrite N2. destruct (qc_dec (ue_ccc U) (visited false p) 0); [now left|now right]. Qed.
  Lemma normal_back : forall p q, ue_nfc U p = Some p -> normal_form U (opt_nfc g) p q -> q = p.
  Proof. intros p q H. unfold normal_form. rewrite N2. intros [(_ & ->)|(_ & X)]; congruence. Qed.

  Lemma raw_nfc_more : forall b d, raw_label U f b d -> raw_label U g b d.
  Proof.
    intros b d [A X LE|e p0 p e' E X D Sc Nf V RE LE SC|p0 p e A Hu Nf V NA RE LE]; rewrite ?R in *.
    - apply raw_ascii; auto.
    - unfold normal_form in Nf. rewrite N1 in Nf. subst p0. apply (raw_alabel U g b e p p e'); auto. apply normal_same. apply V.
    - unfold normal_form in Nf. rewrite N1 in Nf. subst p0. apply (raw_ulabel U g b p p e); auto. apply normal_same. apply V.
  Qed.
  Lemma raw_nfc_less : forall b d, raw_label U g b d -> (forall p, stands_for f b p -> ue_nfc U p = Some p) -> raw_label U f b d.
  Proof.
    intros b d [A X LE|e p0 p e' E X D Sc Nf V RE LE SC|p0 p e A Hu Nf V NA RE LE] H; rewrite <- ?R in *.
    - apply raw_ascii; auto.
    - assert (p = p0) as -> by (apply normal_back; auto; apply H; right; eauto). apply (raw_alabel U f b e p0 p0 e'); auto. unfold normal_form. now rewrite N1.
    - assert (p = p0) as -> by (apply normal_back; auto; apply H; left; auto). apply (raw_ulabel U f b p0 p0 e); auto. unfold normal_form. now rewrite N1.
  Qed.
  Lemma raw_nfc_normal : forall b d, bytes b -> zlen b < two64 -> raw_label U f b d -> forall p, stands_for f b p -> ue_nfc U p = Some p.
  Proof.
    intros b d B L [A X LE|e p0 p e' E X D Sc Nf V RE LE SC|p0 p e A Hu Nf V NA RE LE] q S.
    - exfalso. destruct S as [(S & _)|(S & e & -> & _)]; [|apply (X S); exists e; reflexivity].
      apply Exists_exists in S. destruct S as (c & I & G). unfold all_ascii in A. rewrite Forall_forall in A. apply A in I. lia.
    - unfold normal_form in Nf. rewrite N1 in Nf. subst p0. destruct S as [(S & _)|(_ & e2 & E2 & D2)].
      + exfalso. apply Exists_exists in S. destruct S as (c & I & G). subst b. unfold ace in I. destruct D as (D & _).
        assert (all_ascii (ace e)) by (apply ace_ascii; eapply Forall_impl; [|exact D]; unfold ldh_or_underscore; cbv beta; lia).
        unfold all_ascii in H. rewrite Forall_forall in H. apply H in I. lia.
      + assert (e2 = e) as -> by (unfold ace in *; congruence). assert (LE2 : zlen e < two64) by (subst b; rewrite zlen_ace in L; lia).
        apply decodes_iff in D, D2; auto. assert (q = p) as -> by congruence. apply V.
    - unfold normal_form in Nf. rewrite N1 in Nf. subst p0. destruct S as [(_ & S)|(_ & e2 & E2 & D2)].
      + assert (q = p) as -> by (apply u8_to_u32_iff in S, Hu; auto; congruence). apply V.
      + exfalso. apply Exists_exists in A. destruct A as (c & I & G). subst b. destruct D2 as (D & _).
        assert (all_ascii (ace e2)) by (apply ace_ascii; eapply Forall_impl; [|exact D]; unfold ldh_or_underscore; cbv beta; lia).
        unfold all_ascii in H. rewrite Forall_forall in H. apply H in I. lia.
  Qed.
End Flag.

Lemma nfc_flag : forall U src f g r, nfc_ok U -> c_string src -> zlen src < two64 -> ~ bad_flags f -> ~ bad_flags g ->
  opt_no_tr46 f = true -> opt_no_tr46 g = true -> opt_nfc f = false -> opt_nfc g = true -> opt_no_roundtrip f = opt_no_roundtrip g ->
  (lookup_u8 U src f = Ok r <->
   lookup_u8 U src g = Ok r /\ forall ls, dotted ls src -> Forall (fun b => forall p, stands_for f b p -> ue_nfc U p = Some p) ls).
Proof.
  intros U src f g r K C L B1 B2 T1 T2 N1 N2 R. rewrite !lookup_exact by auto. unfold accepts. rewrite T1, T2. split.
  - intros (_ & ls & ds & D1 & F & D2 & Z). split.
    + split; [exact B2|]. exists ls, ds. split; [exact D1|]. split; [|auto]. eapply Forall2_impl_in; [exact F|]. intros b d _. now apply raw_nfc_more.
    + intros ls' D'. assert (ls' = ls) as -> by (apply dotted_iff in D1, D'; congruence).
      assert (P : Forall (fun b => bytes b /\ zlen b < two64) ls).
      { apply dotted_iff in D1. rewrite <- D1. pose proof (plain_split src C L) as Q. eapply Forall_impl; [|exact Q]. intros b. apply plain_bytes. }
      clear - F P N1. induction F as [|b d ls ds H F IH]; [constructor|]. inversion P as [|? ? (P1 & P2) P']; subst. constructor; [|auto]. eapply raw_nfc_normal; eauto.
  - intros ((_ & ls & ds & D1 & F & D2 & Z) & H). split; [exact B1|]. specialize (H ls D1). exists ls, ds. split; [exact D1|]. split; [|auto].
    clear - F H N1 N2 R. induction F as [|b d ls ds X F IH]; [constructor|]. inversion H; subst. constructor; [|auto]. eapply raw_nfc_less; eauto.
Qed.

(** "e" and a combining acute accent: not in NFC; "é": in NFC. *)
Lemma case_nfc_flag : nfc_ok ucd /\ ~ bad_flags IDN2_NO_TR46 /\ ~ bad_flags 65 /\ opt_no_tr46 65 = true /\ opt_nfc 65 = true /\
  lookup_u8 ucd [101;204;129] IDN2_NO_TR46 = Fail IDN2_NOT_NFC /\ lookup_u8 ucd [101;204;129] 65 = Ok [120;110;45;45;57;99;97] /\
  lookup_u8 ucd [195;169] IDN2_NO_TR46 = Ok [120;110;45;45;57;99;97] /\ lookup_u8 ucd [195;169] 65 = Ok [120;110;45;45;57;99;97].
Proof.
  split; [exact ucd_nfc_ok|]. split; [apply not_bad; auto|]. split; [apply not_bad; auto|]. vm_compute. repeat split.
Qed.
