(** Names that can be looked up and labels that can be registered. *)
From Verif Require Import Base PunyBase PunyRT PunyInv PunyComplete PunyExact Uenv DataTypes SpecUtf8 SpecPuny SpecTables SpecBidi SpecContext SpecLabel SpecNfc
  SpecLookup SpecRegister Utf8 Utf8Proofs Idna Puny PunyTop Lookup LabelProofs NfcProofs MapProofs LookupProofs LookupTr46 LookupIdem LookupTop LookupCodes BaseTop Api ApiProofs Register
  RegisterProofs RegisterTop SpecToAscii SpecRefusal ToAsciiProofs Compose RefusalLabel RefusalProofs SpecPunyErr PunyErr SpecRegRefusal RegRefusal RegRefusalTop PunyDet FlagRel Uts46Proofs SpecRegGap.

Lemma Forall2_in_r : forall A B (R : A -> B -> Prop) a b, Forall2 R a b -> forall y, In y b -> exists x, In x a /\ R x y.
Proof.
  intros A B R a b F. induction F as [|x y a b H F IH]; intros z I; [destruct I|].
  destruct I as [<-|I]; [exists x; cbn; auto|]. destruct (IH z I) as (w & W & Z). exists w. cbn. auto.
Qed.
Lemma xn_ace : forall e, xn (ace e).
Proof. intros e. exists e. reflexivity. Qed.
Lemma ace_inj : forall a b, ace a = ace b -> a = b.
Proof. unfold ace. intros a b H. congruence. Qed.

Section P.
  Variable U : uenv.
  Hypothesis K : nfc_ok U.

  Lemma result_encodes : forall src f r ds e, c_string src -> opt_no_roundtrip f = false -> accepts U f src r -> dotted ds r -> In (ace e) ds ->
    exists p, Forall scalar p /\ rfc_encodes p e /\ zlen e <= 59.
  Proof.
    intros src f r ds e C NR (NB & A) D I. destruct (opt_no_tr46 f).
    - destruct A as (ls & ds' & DL & F & D' & _). rewrite (dotted_fun _ _ _ D D') in I.
      destruct (Forall2_in_r _ _ _ _ _ F _ I) as (b & Ib & R). inversion R as [A1 A2 A3 E|e0 p0 p e' E0 N0 DT S0 NF V RE L SB E|p0 p e' NA UT NF V NAP RE L E].
      + exfalso. subst b. apply (A2 NR). apply xn_ace.
      + subst e'. pose proof (normal_scalar U _ _ _ K S0 NF) as SP. exists p. auto.
      + subst e'. pose proof (normal_scalar U _ _ _ K (utf8_scalar _ _ UT) NF) as SP. exists p. auto.
    - destruct A as (l & n & ls & ds' & UT & ND & ML & EN & DL & F & D' & _). rewrite (dotted_fun _ _ _ D D') in I.
      destruct (Forall2_in_r _ _ _ _ _ F _ I) as (s & Is & R).
      destruct (label_of U K f l n ls s (utf8_scalar _ _ UT) (utf8_c_string _ _ UT C) ML EN DL Is) as (SS & N46 & LS).
      inversion R as [A1 A2 A3 A4 E|e0 p E0 L0 DT V NR' CE V2 E|e0 p E0 L0 DT V NR' E|e' NA NX V V2 LD RE L E].
      + exfalso. subst s. apply A2. apply xn_ace.
      + clear E. rewrite <- CE. destruct (canon_encodes e0 p L0 DT) as (RE & LE).
        destruct V as (V3 & V4 & V5 & V6 & V7). destruct DT as (D1 & D2 & D3 & D4 & D5). pose proof (status_scalar _ _ _ D3 V7) as SP. exists p. auto.
      + congruence.
      + subst e'. exists s. auto.
  Qed.

  Lemma encodes_a_label : forall p e, Forall scalar p -> registrable U p -> not_ascii p -> rfc_encodes p e -> zlen e <= 59 -> a_label p (ace e).
  Proof. intros p e S R N RE L. apply enc_a_label; auto; [now apply registrable_ascii with U|]. apply encodes60; auto. Qed.

  (** The A-labels in the result of a lookup that can be registered. *)
  Lemma result_registrable : forall src f r ds e g q, c_string src -> zlen src < two64 -> opt_no_roundtrip f = false -> opt_transitional f = false ->
    lookup_u8 U src f = Ok r -> dotted ds r -> In (ace e) ds ->
    (register_u8 U None (Some (ace e)) (Some q) g = Ok (IDN2_OK, Some (Some (ace e))) <-> exists p, rfc_decodes e p /\ registration_extra U p).
  Proof.
    intros src f r ds e g q C L NR NT H D I.
    destruct (accepted_tests U src f r (ace e) e K C L NR NT H (ex_intro _ ds (conj D I)) eq_refl) as (p & RD & NA & T1 & T2 & T3 & T4 & T5 & T6 & T7 & T8).
    destruct (result_encodes src f r ds e C NR (proj1 (lookup_exact U K src f r C L) H) D I) as (p' & SP & RE & LE).
    pose proof (rfc_decodes_det _ _ _ RD (proj2 RE)) as <-.
    assert (CA : c_string (ace e)).
    { destruct (lookup_shape U src f r K C L H) as (CR & _). destruct D as (D1 & D2 & ->). unfold c_string. rewrite Forall_forall in *. intros x X.
      assert (Y : In x (join ds)) by (eapply join_in; eauto). apply CR in Y. lia. }
    rewrite (registration_exact U g None (Some (ace e)) K); [|discriminate|intros s Hs; injection Hs as <-; exact CA]. split.
    - intros R. inversion R as [| |u l a AL RG X E1 E2 E3]; subst. destruct AL as (_ & _ & t & E & _ & _ & RT). apply ace_inj in E. subst t.
      exists l. split; [exact RT|]. destruct RG. split; [auto|split; auto].
    - intros (p' & RD' & X1 & X2 & X3). pose proof (rfc_decodes_det _ _ _ RD RD') as <-.
      assert (RG : registrable U p) by (constructor; auto). apply (rg_alabel U g None p); auto; [|discriminate]. apply encodes_a_label; auto.
  Qed.
  (** With TR46 and the STD3 option, only the CONTEXTO rules are left. *)
  Lemma result_registrable_std3 : forall src f r ds e g q, c_string src -> zlen src < two64 -> opt_no_roundtrip f = false -> opt_transitional f = false ->
    opt_no_tr46 f = false -> opt_std3 f = true -> lookup_u8 U src f = Ok r -> dotted ds r -> In (ace e) ds ->
    (register_u8 U None (Some (ace e)) (Some q) g = Ok (IDN2_OK, Some (Some (ace e))) <-> exists p, rfc_decodes e p /\ ok_contexto_rule U p).
  Proof.
    intros src f r ds e g q C L NR NT TR ST H D I. rewrite (result_registrable src f r ds e g q) by auto.
    destruct (accepted_tests U src f r (ace e) e K C L NR NT H (ex_intro _ ds (conj D I)) eq_refl) as (p & RD & NA & T1 & T2 & T3 & T4 & T5 & T6 & T7 & T8).
    rewrite TR, ST in T4. cbn [negb andb] in T4. destruct (T8 TR) as (T9 & _). split.
    - intros (p' & RD' & X1 & X2 & X3). exists p'. auto.
    - intros (p' & RD' & X). pose proof (rfc_decodes_det _ _ _ RD RD') as <-. exists p. split; [exact RD|]. split; auto.
  Qed.

  Lemma normal_fun : forall nfc l p q, normal_form U nfc l p -> normal_form U nfc l q -> p = q.
  Proof.
    unfold normal_form. intros nfc l p q A B. destruct nfc; [|congruence].
    destruct A as [(A1 & A2)|(A1 & A2)], B as [(B1 & B2)|(B1 & B2)]; try congruence; tauto.
  Qed.
  Lemma ldh_utf8 : forall l u, utf8 l u -> c_string u -> Forall lower_ldh l -> all_ascii u.
  Proof.
    intros l u UT C F. apply (nonascii_utf8 l u UT); [now apply c_string_bytes|exact (utf8_scalar _ _ UT)|].
    eapply Forall_impl; [|exact F]. unfold lower_ldh. intros; lia.
  Qed.
  Lemma dotted_one : forall u, ~ In 46 u -> dotted [u] u.
  Proof. intros u N. split; [discriminate|]. split; [constructor; auto|reflexivity]. Qed.
  Lemma decodes_ascii : forall e p, decodes_to e p -> all_ascii (ace e).
  Proof.
    intros e p (D & _). unfold ace, all_ascii. repeat (apply Forall_cons; [lia|]). eapply Forall_impl; [|exact D]. unfold ldh_or_underscore. intros; lia.
  Qed.

  (** Without TR46: lookup and registration of the same label. *)
  Lemma ulabel_gap : forall u f r q, (opt_nfc f = true -> nfc_no_ldh U) -> c_string u -> zlen u < two64 -> not_ascii u -> ~ In 46 u -> opt_no_tr46 f = true -> ~ bad_flags f ->
    (register_u8 U (Some u) None (Some q) f = Ok (IDN2_OK, Some (Some r)) <->
     lookup_u8 U u f = Ok r /\ exists l p, utf8 l u /\ normal_form U (opt_nfc f) l p /\ registration_extra U p).
  Proof.
    intros u f r q NL C L NA N46 NT NB. rewrite (registration_exact U f (Some u) None K); [|intros s Hs; injection Hs as <-; exact C|discriminate].
    rewrite (lookup_exact U K u f r C L). split.
    - intros R. inversion R as [u' AA LA E1 E2 E3|u' l p e NA' UT NF RG RE LE E1 E2 E3|]; subst; [apply not_ascii_iff in NA; tauto|].
      pose proof (normal_scalar U _ _ _ K (utf8_scalar _ _ UT) NF) as SP. split.
      + split; [exact NB|]. rewrite NT. exists [u], [ace e]. split; [now apply dotted_one|]. split.
        { constructor; [|constructor]. pose proof RG as [G1 G2 G3 G4 G5 G6 G7 G8 G9]. apply (raw_ulabel U f u l p e); auto.
          - exact (conj G1 (conj G2 (conj G4 (conj G5 (conj G8 (conj G6 G9)))))).
          - intros _. apply not_ascii_iff. intros AP. assert (FL : Forall lower_ldh p).
            { pose proof (registrable_ascii U p SP RG) as X. unfold all_ascii in AP. rewrite Forall_forall in *. intros c I. auto. }
            apply not_ascii_iff in NA. apply NA. apply (ldh_utf8 l u); auto. unfold normal_form in NF. destruct (opt_nfc f).
            + destruct NF as [(_ & ->)|(_ & EN)]; [exact FL|]. now rewrite (NL eq_refl l p EN FL).
            + now subst p. }
        split; [apply dotted_one; cbn [ace In]; intros [X|[X|[X|[X|X]]]]; try lia|].
        { destruct RE as ((dd & LO & ->) & _). apply in_app_or in X. destruct X as [X|X].
          - unfold ascii_part in X. apply filter_In in X. destruct X as (X & Y). pose proof (registrable_ascii U p SP RG) as Z. rewrite Forall_forall in Z. apply Z in X; [|lia]. unfold lower_ldh in X. lia.
          - apply in_app_or in X. destruct X as [X|X]; [destruct (zlen (ascii_part p) =? 0); cbn in X; intuition lia|].
            rewrite Forall_forall in LO. apply LO in X. unfold lower_or_digit in X. lia. }
        left. unfold ace. rewrite !zlen_cons. lia.
      + exists l, p. split; [exact UT|]. split; [exact NF|]. destruct RG. split; [auto|split; auto].
    - intros ((_ & A) & l & p & UT & NF & X1 & X2 & X3). rewrite NT in A. destruct A as (ls & ds & DL & F & DR & _).
      pose proof (dotted_fun _ _ _ DL (dotted_one u N46)) as ->. inversion F as [|x d xs ds' R F' E1 E2]; subst. inversion F'; subst.
      assert (r = d) as -> by (destruct DR as (_ & _ & ->); reflexivity).
      inversion R as [A1 A2 A3 E|e0 p0 p' e' E0 N0 DT S0 NF' V RE L' SB E|p0 p' e' NA' UT' NF' V NAP RE L' E].
      + subst d. apply not_ascii_iff in NA. tauto.
      + subst u. exfalso. apply not_ascii_iff in NA. apply NA. eapply decodes_ascii; eauto.
      + pose proof (utf8_code_fun _ _ _ UT UT' C) as <-. pose proof (normal_fun _ _ _ _ NF NF') as <-. destruct V as (V1 & V2 & V3 & V4 & V5 & V6 & V7).
        apply (rg_ulabel U f u l p e'); auto. constructor; auto.
  Qed.
End P.

(** ** Cases *)
From Verif Require Import Ucd UcdProofs.

Definition lone_hyphen : list Z := [45; 195; 188].
Definition middle_dot : list Z := [97; 194; 183; 98].
Definition low_line : list Z := [95; 195; 188].
Definition alef_a : list Z := [216; 167; 97].
Lemma extra_test : forall U l, Forall scalar l -> label_test U 0x214 l = Ok tt -> registration_extra U l.
Proof.
  intros U l S. rewrite label_test_ok_iff by now apply scalar_nonneg. unfold label_tests_spec. cbv zeta. intros F.
  repeat match goal with H : Forall passes (_ :: _) |- _ => let P := fresh "P" in inversion H as [|? ? P ?]; clear H; subst end.
  unfold passes in *. split; [|split]; match goal with H : ?b = true -> ?P |- ?P => exact (H eq_refl) end.
Qed.
Lemma encoded_decodes : forall p e, Forall scalar p -> puny_encode p 59 59 = Ok e -> rfc_decodes e p.
Proof. intros p e S H. apply encodes_iff in H; auto. apply H. Qed.

(** Each of the three conditions can fail alone, and so can registration of a name
    that transitional processing accepts. *)
Lemma gap_hyphen : exists src r, c_string src /\ lookup_u8 ucd src IDN2_NO_TR46 = Ok r /\ register_u8 ucd None (Some r) (Some None) 0 = Ok (IDN2_HYPHEN_STARTEND, Some None).
Proof. exists lone_hyphen, (ace [45; 45; 101; 104; 97]). split; [repeat constructor; lia|]. split; vm_compute; reflexivity. Qed.
Lemma gap_contexto : exists src r, c_string src /\ lookup_u8 ucd src IDN2_USE_STD3_ASCII_RULES = Ok r /\ register_u8 ucd None (Some r) (Some None) 0 = Ok (IDN2_CONTEXTO, Some None).
Proof. exists middle_dot, (ace [97; 98; 45; 48; 101; 97]). split; [repeat constructor; lia|]. split; vm_compute; reflexivity. Qed.
Lemma gap_std3 : exists src r, c_string src /\ lookup_u8 ucd src 0 = Ok r /\ register_u8 ucd None (Some r) (Some None) 0 = Ok (IDN2_DISALLOWED, Some None).
Proof. exists low_line, (ace [95; 45; 101; 104; 97]). split; [repeat constructor; lia|]. split; vm_compute; reflexivity. Qed.
Lemma gap_transitional : exists src e p, c_string src /\ lookup_u8 ucd src IDN2_TRANSITIONAL = Ok (ace e) /\ rfc_decodes e p /\ registration_extra ucd p /\
  register_u8 ucd None (Some (ace e)) (Some None) 0 = Ok (IDN2_BIDI, Some None).
Proof.
  exists alef_a, [97; 45; 121; 109; 99], [0x627; 97]. assert (S : Forall scalar [0x627; 97]) by (repeat constructor; unfold scalar; lia).
  split; [repeat constructor; lia|]. split; [vm_compute; reflexivity|]. split; [apply encoded_decodes; [exact S|vm_compute; reflexivity]|].
  split; [apply extra_test; [exact S|vm_compute; reflexivity]|vm_compute; reflexivity].
Qed.
(** "ü.a·b": the first label can be registered, the second not. *)
Definition two_labels : list Z := [195; 188; 46; 97; 194; 183; 98].
Lemma case_gap : nfc_ok ucd /\ nfc_no_ldh ucd /\ c_string two_labels /\ lookup_u8 ucd two_labels IDN2_USE_STD3_ASCII_RULES = Ok (ace [116;100;97] ++ 46 :: ace [97;98;45;48;101;97]) /\
  dotted [ace [116;100;97]; ace [97;98;45;48;101;97]] (ace [116;100;97] ++ 46 :: ace [97;98;45;48;101;97]) /\
  rfc_decodes [116;100;97] [252] /\ registration_extra ucd [252] /\ rfc_decodes [97;98;45;48;101;97] [97; 183; 98] /\ ~ registration_extra ucd [97; 183; 98] /\
  register_u8 ucd None (Some (ace [116;100;97])) (Some None) 0 = Ok (IDN2_OK, Some (Some (ace [116;100;97]))) /\
  register_u8 ucd None (Some (ace [97;98;45;48;101;97])) (Some None) 0 = Ok (IDN2_CONTEXTO, Some None).
Proof.
  assert (S : Forall scalar [252]) by (repeat constructor; unfold scalar; lia). assert (S2 : Forall scalar [97; 183; 98]) by (repeat constructor; unfold scalar; lia).
  assert (C : c_string two_labels) by (repeat constructor; lia).
  assert (D : dotted [ace [116;100;97]; ace [97;98;45;48;101;97]] (ace [116;100;97] ++ 46 :: ace [97;98;45;48;101;97])).
  { split; [discriminate|]. split; [|reflexivity]. repeat constructor; cbn; intuition lia. }
  assert (L : lookup_u8 ucd two_labels IDN2_USE_STD3_ASCII_RULES = Ok (ace [116;100;97] ++ 46 :: ace [97;98;45;48;101;97])) by (vm_compute; reflexivity).
  assert (R : register_u8 ucd None (Some (ace [97;98;45;48;101;97])) (Some None) 0 = Ok (IDN2_CONTEXTO, Some None)) by (vm_compute; reflexivity).
  assert (P : rfc_decodes [97;98;45;48;101;97] [97; 183; 98]) by (apply encoded_decodes; [exact S2|vm_compute; reflexivity]).
  split; [exact ucd_nfc_ok|]. split; [exact ucd_no_ldh|]. split; [exact C|]. split; [exact L|]. split; [exact D|].
  split; [apply encoded_decodes; [exact S|vm_compute; reflexivity]|]. split; [apply extra_test; [exact S|vm_compute; reflexivity]|]. split; [exact P|]. split.
  - intros X. assert (Z : register_u8 ucd None (Some (ace [97;98;45;48;101;97])) (Some None) 0 = Ok (IDN2_OK, Some (Some (ace [97;98;45;48;101;97])))).
    { apply (result_registrable ucd ucd_nfc_ok two_labels IDN2_USE_STD3_ASCII_RULES _ _ [97;98;45;48;101;97] 0 None C ltac:(vm_compute; reflexivity) eq_refl eq_refl L D); [right; left; reflexivity|]. eauto. }
    rewrite R in Z. discriminate Z.
  - split; [vm_compute; reflexivity|exact R].
Qed.
