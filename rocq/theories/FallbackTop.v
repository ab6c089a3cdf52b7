(** The fallback, stated on the calls the client makes. *)
From Verif Require Import Base PunyBase Uenv DataTypes SpecUtf8 SpecTables SpecNfc SpecLookup SpecToAscii SpecRefusal Lookup LookupCodes LookupTr46 LookupTop Api Fallback SpecFallback FallbackProofs FallbackCases.

Section Top.
  Variable U : uenv.
  Hypothesis K : nfc_ok U.

  Lemma code : forall s rc, c_string s -> zlen s < two64 -> fallback U s = Fail rc -> rc <> IDN2_OK.
  Proof.
    assert (G : forall s f rc, c_string s -> zlen s < two64 -> lookup_u8 U s f = Fail rc -> rc <> IDN2_OK).
    { intros s f rc C L H. apply lookup_codes in H; auto. destruct H as [(_ & ->)|(_ & H)]; [discriminate|]. unfold lookup_errors in H. cbn [In] in H. intuition (subst; discriminate). }
    intros s rc C L H. unfold fallback in H. destruct (lookup_u8 U s NT) as [r|e| |] eqn:F; try discriminate H.
    destruct (e =? IDN2_DISALLOWED); [eapply G; [exact C|exact L|exact H]|]. injection H as <-. eapply G; [exact C|exact L|exact F].
  Qed.
  Lemma delivered : forall s q r, c_string s -> zlen s < two64 -> (to_ascii_fallback U (Some s) (Some q) = Ok (IDN2_OK, Some (Some r)) <-> fallback U s = Ok r).
  Proof.
    intros s q r C L. rewrite fallback_api. pose proof (code s) as N. destruct (fallback U s) as [x|rc| |]; cbn [deliver store]; split; intros H; try discriminate H.
    - injection H as ->. reflexivity.
    - injection H as ->. reflexivity.
    - exfalso. injection H as E _. exact (N rc C L eq_refl E).
  Qed.
  Lemma refused : forall s o rc, c_string s -> zlen s < two64 -> rc <> IDN2_OK -> (to_ascii_fallback U (Some s) o = Ok (rc, o) <-> fallback U s = Fail rc).
  Proof.
    intros s o rc C L N. rewrite fallback_api. destruct (fallback U s) as [x|e| |]; cbn [deliver store]; split; intros H; try discriminate H.
    - exfalso. injection H as E _. congruence.
    - injection H as ->. reflexivity.
    - injection H as ->. reflexivity.
  Qed.
  Lemma exact_api : forall s q r, c_string s -> zlen s < two64 -> (to_ascii_fallback U (Some s) (Some q) = Ok (IDN2_OK, Some (Some r)) <-> fallback_accepts U s r).
  Proof. intros s q r C L. rewrite delivered by auto. now apply fallback_exact. Qed.
  Lemma refusal_api : forall s o rc, c_string s -> zlen s < two64 -> rc <> IDN2_OK -> (to_ascii_fallback U (Some s) o = Ok (rc, o) <-> fallback_refuses U s rc).
  Proof. intros s o rc C L N. rewrite refused by auto. now apply fallback_refusal. Qed.
  Lemma again_api : forall s r l q q', c_string s -> zlen s < two64 -> utf8 l s -> Forall (fun c => status_of c <> Deviation) l ->
    to_ascii_fallback U (Some s) (Some q) = Ok (IDN2_OK, Some (Some r)) -> to_ascii_fallback U (Some r) (Some q') = Ok (IDN2_OK, Some (Some r)).
  Proof. intros s r l q q' C L Hu F H. apply delivered in H; auto. rewrite fallback_api, (again U K s r l C L Hu F H). reflexivity. Qed.
  Lemma stable_api : forall s r q q', c_string s -> zlen s < two64 -> to_ascii_fallback U (Some s) (Some q) = Ok (IDN2_OK, Some (Some r)) ->
    exists rc c, to_ascii_fallback U (Some r) (Some q') = Ok (rc, Some c) /\ (rc = IDN2_OK /\ c = Some r \/ rc <> IDN2_OK /\ rc <> IDN2_DISALLOWED /\ c = q').
  Proof.
    intros s r q q' C L H. apply delivered in H; auto. destruct (stable U K s r C L H) as [S|(rc & N & F)].
    - exists IDN2_OK, (Some r). rewrite fallback_api, S. auto.
    - assert (G : fallback U r = Fail rc). { unfold fallback. rewrite F. apply Z.eqb_neq in N. rewrite N. reflexivity. }
      exists rc, q'. rewrite fallback_api, G. split; [reflexivity|]. right. split; [|auto].
      assert (Q : c_string r /\ zlen r < two64).
      { assert (W : exists f, lookup_u8 U s f = Ok r).
        { unfold fallback in H. destruct (lookup_u8 U s NT) as [x|e| |] eqn:X; try discriminate H; [exists NT; congruence|]. destruct (e =? IDN2_DISALLOWED); [exists TR; exact H|discriminate H]. }
        destruct W as (f & W). pose proof (lookup_shape U s f r K C L W) as (A & _ & ZZ). split; [eapply Forall_impl; [|exact A]; cbv beta; lia|unfold two64; lia]. }
      destruct Q as (Q1 & Q2). exact (code r rc Q1 Q2 G).
  Qed.
  Lemma transitional_api : forall s r l n q q', c_string s -> zlen s < two64 -> utf8 l s -> Forall (fun c => status_of c <> Deviation) l ->
    ue_nfc U (uts46_map false false l) = Some n -> Forall (fun c => status_of c <> Deviation) n ->
    to_ascii_fallback U (Some s) (Some q) = Ok (IDN2_OK, Some (Some r)) -> to_ascii_8z U (Some s) (Some q') IDN2_TRANSITIONAL = Ok (IDN2_OK, Some (Some r)).
  Proof.
    intros s r l n q q' C L Hu F E F' H. apply delivered in H; auto. pose proof (fallback_transitional U K s r l n C L Hu F E F' H) as X.
    unfold to_ascii_8z, idn2_lookup_u8. rewrite X. reflexivity.
  Qed.
End Top.
