(** Accepted names consist of code points the tables know. *)
From Verif Require Import Base PunyBase Uenv DataTypes DataTr46 Tables SpecUtf8 SpecPuny SpecTables SpecLabel SpecNfc SpecLookup SpecToAscii SpecRegister SpecRegRefusal Puny LookupProofs Utf8 Utf8Proofs
  Idna Lookup LabelProofs MapProofs LookupTr46 LookupIdem LookupTop ToAsciiProofs Api Register RegisterProofs RegRefusal RegRefusalTop RegLookup StableProofs Ucd UcdProofs SpecAgree AgreeProofs.

Lemma agree_sym : forall A U V, agree A U V -> agree A V U.
Proof.
  intros A U V G. constructor; try (intros; symmetry; now apply G). intros l p F H. rewrite <- (ag_nfc _ _ _ G l F) in H. exact (ag_closed _ _ _ G l p F H).
Qed.

Lemma ascii_assigned : forallb (fun c => negb (match csv_property c with UNASSIGNED => true | _ => false end)) (zrange 128) = true.
Proof. vm_compute. reflexivity. Qed.
Lemma ascii_known : forall c, 0 <= c < 128 -> known c.
Proof.
  intros c R. right. intros E. pose proof ascii_assigned as H. rewrite forallb_forall in H. specialize (H c (zrange_in c 128 R)). cbv beta in H. rewrite E in H. discriminate.
Qed.
Lemma ok_status_known : forall p t s, ok_status p t s -> Forall known p.
Proof. intros p t s H. eapply Forall_impl; [|exact H]. cbv beta. unfold known, is_std3. intros c K. left. destruct K as [K|[(_ & K)|(_ & [K|K])]]; rewrite K; discriminate. Qed.
Lemma assigned_known : forall p, ok_no p UNASSIGNED -> Forall known p.
Proof. intros p H. eapply Forall_impl; [|exact H]. intros c K. now right. Qed.
Lemma decodes_one : forall e p q, zlen e < two64 -> decodes_to e p -> decodes_to e q -> p = q.
Proof. intros e p q L P Q. apply decodes_iff in P, Q; auto. congruence. Qed.
Lemma mapped_known : forall t s l, ~ Exists (fun c => status_of c = Disallowed) l -> Forall known (uts46_map t s l).
Proof.
  intros t s l H. assert (E : existsb disallowedb l = false). { destruct (existsb disallowedb l) eqn:X; [|reflexivity]. apply disallowedb_iff in X. contradiction. }
  apply (uts46_map_disallowed t s) in E. apply Forall_forall. intros c I. left. intros D. assert (X : existsb disallowedb (uts46_map t s l) = true); [|congruence].
  apply disallowedb_iff. apply Exists_exists. eauto.
Qed.
Lemma F2_left : forall X Y (R : X -> Y -> Prop) xs ys x, Forall2 R xs ys -> In x xs -> exists y, In y ys /\ R x y.
Proof. intros X Y R xs ys x F. induction F as [|a b xs ys H F IH]; intros I; [destruct I|]. destruct I as [->|I]; [exists b; split; [now left|auto]|]. destruct (IH I) as (y & J & K). exists y. split; [now right|auto]. Qed.

Lemma accepted_known : forall U src f r, c_string src -> zlen src < two64 -> ~ (opt_no_tr46 f = true /\ opt_nfc f = true) -> accepts U f src r ->
  exists l, utf8 l src /\ only known U f l.
Proof.
  intros U src f r C Z NN (NB & H). unfold only, decoding, final_name, mapped_name in *. destruct (opt_no_tr46 f) eqn:T.
  - destruct H as (ls & ds & D & F & _). assert (NF : opt_nfc f = false) by (destruct (opt_nfc f); [destruct NN; auto|reflexivity]). clear NN.
    assert (CL : Forall (fun b => c_string b /\ zlen b < two64) ls).
    { apply dotted_iff in D. subst ls. pose proof (plain_split src C Z) as P. eapply Forall_impl; [|exact P]. cbv beta. intros b (B1 & _ & B2). auto. }
    assert (exists xs, Forall2 utf8 xs ls /\ Forall (Forall known) xs /\ (opt_no_roundtrip f = false -> forall e p, In (ace e) xs -> decodes_to e p -> Forall known p)) as (xs & X1 & X2 & X3).
    { clear D. revert CL. induction F as [|b d ls ds B F IH]; intros CL; [exists []; split; [constructor|]; split; [constructor|]; intros _ e p []|].
      inversion CL as [|? ? (CB & ZB) CL']; subst. destruct (IH CL') as (xs & X1 & X2 & X3). unfold normal_form in B.
      assert (exists x, utf8 x b /\ Forall known x /\ (opt_no_roundtrip f = false -> forall e p, ace e = x -> decodes_to e p -> Forall known p)) as (x & Y1 & Y2 & Y3).
      { assert (AS : all_ascii b -> utf8 b b /\ Forall known b).
        { intros A. assert (R : Forall (fun c => 0 <= c < 128) b). { unfold all_ascii in A. unfold c_string in CB. rewrite Forall_forall in *. intros c I. specialize (A c I). specialize (CB c I). cbv beta in *. lia. }
          split; [now apply utf8_ascii|]. eapply Forall_impl; [|exact R]. apply ascii_known. }
        destruct B as [A N L|e p0 p e' -> N D S NO V E L W|p0 p e NA UT NO V N E L].
        - destruct (AS A) as (A1 & A2). exists b. split; [exact A1|]. split; [exact A2|]. intros RT e p <- Dp. destruct (N RT). now exists e.
        - assert (A : all_ascii (ace e)). { destruct D as (D & _). unfold all_ascii, ace. repeat (apply Forall_cons; [lia|]). eapply Forall_impl; [|exact D]. unfold ldh_or_underscore. intros c. cbv beta. lia. }
          destruct (AS A) as (A1 & A2). exists (ace e). split; [exact A1|]. split; [exact A2|]. intros RT e1 p1 Ee Dp. injection Ee as ->. unfold normal_form in NO. rewrite NF in NO. subst p0.
          rewrite (decodes_one e p1 p) by (auto; change (zlen (ace e) < two64) in ZB; rewrite zlen_ace in ZB; lia). apply assigned_known. apply V.
        - unfold normal_form in NO. rewrite NF in NO. subst p0. assert (K : Forall known p) by (apply assigned_known; apply V). exists p. split; [exact UT|]. split; [exact K|].
          intros _ e1 p1 <- Dp. exfalso. unfold not_ascii in NA. apply Exists_exists in NA. destruct NA as (c & I & G).
          assert (A : Forall (fun c => 0 <= c < 128) (ace e1)). { destruct Dp as (Dp & _). unfold ace. repeat (apply Forall_cons; [lia|]). eapply Forall_impl; [|exact Dp]. unfold ldh_or_underscore. intros x. cbv beta. lia. }
          pose proof (utf8_ascii _ A) as UA. assert (b = ace e1) as ->; [|rewrite Forall_forall in A; specialize (A c I); cbv beta in A; lia].
          apply u32_to_u8_iff in UT, UA. congruence. }
      exists (x :: xs). split; [constructor; auto|]. split; [constructor; auto|]. intros RT e p [I|I]; [now apply (Y3 RT)|now apply X3]. }
    destruct D as (D1 & D2 & ->). exists (join xs). split; [now apply utf8_join|]. split.
    + apply join_Forall; auto.
      apply ascii_known. lia.
    + intros n ls' e p Dc -> Dl I Dp. apply (X3 (Dc eq_refl) e p); [|exact Dp]. apply dotted_iff in Dl. subst ls'. replace (split_dots (join xs)) with xs in I; [exact I|]. symmetry. apply dotted_iff.
      split; [destruct X1; [congruence|discriminate]|]. split; [|reflexivity]. clear - X1 D2. induction X1 as [|x b xs ls U1 X1 IH]; [constructor|]. inversion D2; subst. constructor; [|now apply IH].
      intros I. match goal with N : ~ In 46 b |- _ => apply N end. now apply (utf8_In _ _ 46 U1).
  - destruct H as (l & n & ls & ds & UT & NDs & _ & N & D & F & _). exists l. split; [exact UT|]. split; [now apply mapped_known|]. intros n' ls' e p _ N' D' I Dp. rewrite N in N'. injection N' as <-.
    apply dotted_iff in D, D'. rewrite D in D'. subst ls'. destruct (F2_left _ _ _ _ _ _ F I) as (d & _ & T1).
    assert (LE : forall e0, ace e = ace e0 -> e0 = e) by (intros e0 Q; injection Q as ->; reflexivity).
    inversion T1 as [A NX V L Q|e0 p0 Q L Dq V R W1 W2 Q2|e0 p0 Q L Dq V R Q2|e0 NA NX V W1 W2 E L Q].
    + destruct NX. now exists e.
    + rewrite (LE e0 Q) in *. rewrite (decodes_one e p p0) by (auto; unfold two64; lia). destruct V as (_ & _ & _ & _ & V). exact (ok_status_known _ _ _ V).
    + rewrite (LE e0 Q) in *. rewrite (decodes_one e p p0) by (auto; unfold two64; lia). destruct V as (_ & _ & _ & _ & V). exact (ok_status_known _ _ _ V).
    + destruct NX. now exists e.
Qed.
Lemma upgrade1 : forall U V src f r, nfc_ok U -> nfc_ok V -> agree known U V -> c_string src -> zlen src < two64 -> ~ (opt_no_tr46 f = true /\ opt_nfc f = true) ->
  lookup_u8 U src f = Ok r -> lookup_u8 V src f = Ok r.
Proof.
  intros U V src f r KU KV G C Z N H. destruct (accepted_known U src f r C Z N (proj1 (lookup_exact U KU src f r C Z) H)) as (l & UT & O).
  rewrite <- (lookup_agree known U V G src l f KU KV C Z UT O). exact H.
Qed.
Lemma upgrade : forall U V src f r, nfc_ok U -> nfc_ok V -> agree known U V -> c_string src -> zlen src < two64 -> ~ (opt_no_tr46 f = true /\ opt_nfc f = true) ->
  (lookup_u8 U src f = Ok r <-> lookup_u8 V src f = Ok r).
Proof. intros U V src f r KU KV G C Z N. split; apply upgrade1; auto using agree_sym. Qed.

Lemma registrable_known : forall U p, registrable U p -> Forall known p.
Proof. intros U p R. apply assigned_known. apply (reg_unassigned _ _ R). Qed.
Lemma registered_known : forall U u a f r, (forall s, u = Some s -> c_string s) -> opt_nfc f = false -> registers U f u a r -> only_registered known u a.
Proof.
  intros U u a f r CU NF H. split.
  - intros s l -> -> UT. inversion H as [s' A L E1 E2|s' l' p e NA UT' NO R E L E1 E2|]; subst.
    + rewrite (utf8_ascii_eq _ _ UT A). specialize (CU r eq_refl). unfold all_ascii in A. unfold c_string in CU. rewrite Forall_forall in *. intros c I. apply ascii_known. specialize (A c I). specialize (CU c I). cbv beta in *. lia.
    + unfold normal_form in NO. rewrite NF in NO. subst p. assert (l = l') as ->; [|exact (registrable_known _ _ R)]. specialize (CU s eq_refl). apply u8_to_u32_iff in UT, UT'; try now apply c_string_bytes. congruence.
  - intros e p -> Dp. inversion H as [| |u' l a' (S & X & t & Et & LT & LA & RD) R W E1 E2 E3]; subst. injection Et as <-. assert (p = l) as ->; [|exact (registrable_known _ _ R)].
    destruct Dp as (_ & RC & _). apply (PunyDet.rfc_decodes_det e); [|exact RD]. now rewrite lower_ldh_canon in RC by exact LT.
Qed.

Lemma register_upgrade1 : forall U V u a o o' f, nfc_ok U -> nfc_ok V -> agree known U V -> (forall s, u = Some s -> c_string s) -> (forall s, a = Some s -> c_string s) -> opt_nfc f = false ->
  register_u8 U u a o f = Ok (IDN2_OK, o') -> register_u8 V u a o f = Ok (IDN2_OK, o').
Proof.
  intros U V u a o o' f KU KV G CU CA NF H. destruct a as [x|].
  - assert (exists r, registers U f u (Some x) r) as (r & R).
    { unfold register_u8 in H. apply ApiProofs.deliver_ok in H. destruct H as [(r & E & _)|(E & _)]; [|exfalso; exact (RegisterTop.reg_a_nz U u x _ KU (CA x eq_refl) E eq_refl)].
      exists r. apply (reg_a_exact U KU u x f r (CA x eq_refl)). exact E. }
    rewrite <- (register_agree known U V G u (Some x) o f KU KV CU CA (registered_known U u (Some x) f r CU NF R)). exact H.
  - destruct u as [s|]; [|exact H]. assert (exists r, registers U f (Some s) None r) as (r & R).
    { unfold register_u8 in H. apply ApiProofs.deliver_ok in H. destruct H as [(r & E & _)|(E & _)]; [|exfalso; exact (RegisterTop.reg_u_nz U s f _ KU (CU s eq_refl) E eq_refl)].
      exists r. apply (reg_u_exact U KU s f r (CU s eq_refl)). exact E. }
    rewrite <- (register_agree known U V G (Some s) None o f KU KV CU CA (registered_known U (Some s) None f r CU NF R)). exact H.
Qed.
Lemma register_upgrade : forall U V u a o o' f, nfc_ok U -> nfc_ok V -> agree known U V -> (forall s, u = Some s -> c_string s) -> (forall s, a = Some s -> c_string s) -> opt_nfc f = false ->
  (register_u8 U u a o f = Ok (IDN2_OK, o') <-> register_u8 V u a o f = Ok (IDN2_OK, o')).
Proof. intros U V u a o o' f KU KV G CU CA N. split; apply register_upgrade1; auto using agree_sym. Qed.
