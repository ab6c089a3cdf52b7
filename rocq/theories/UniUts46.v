(** The library's ToUnicode and that of UTS #46. *)
From Verif Require Import Base PunyBase Puny PunyTop Uenv DataTypes SpecUtf8 SpecPuny SpecTables SpecBidi SpecContext SpecLabel SpecNfc
  SpecLookup SpecToAscii SpecUts46 SpecUniUts46 Lookup MapProofs LookupTr46 LookupIdem LookupTop ToAsciiProofs Uts46Proofs Utf8 Utf8Proofs
  Api SpecUnicode DecodeProofs RoundTrip ApiProofs Ucd UcdProofs LookupExamples ApiExamples AcceptExamples Uts46Examples.

Lemma process_unicode : forall U P s s8 p, ascii_ace P = false -> Forall (fun c => 0 <= c) s -> utf8 s s8 -> process_label U P s p -> zlen p <= 63 ->
  ((exists e, s = ace e) -> ascii_ldhu p) -> unicode_of s8 p.
Proof.
  intros U P s s8 p AA NN H [e p' E A D S NA V|X V] L LD.
  - subst s. specialize (LD (ex_intro _ e eq_refl)). assert (N : Forall (fun c => 0 <= c) e).
    { apply Forall_forall. intros c I. rewrite Forall_forall in NN. apply NN. unfold ace. cbn [In]. tauto. }
    destruct (rfc_canon e p' D A N LD) as (D' & LE & _).
    assert (s8 = ace e) as ->.
    { apply (utf8_fun (ace e)); auto. apply utf8_ascii. pose proof (ace_ascii e A) as Q. unfold all_ascii in Q. rewrite Forall_forall in Q, NN |- *. intros c I. split; auto. }
    apply (uo_ace _ e); auto.
    + exists 120, 110. unfold ace. auto.
    + eapply Forall_impl; [|exact S]. unfold scalar, permitted. intros; lia.
    + now apply NA.
  - apply uo_plain; auto. intros (t & At). destruct (utf8_ace _ _ _ H At) as (t' & At'). revert At'. 
    pose proof (lower_no_ace s (effective_upper _ _ _ (vl_status _ _ _ _ V)) X) as Q. intros Y. apply Q. eauto.
Qed.

Lemma uts46_unicode : forall U P l n ps r src, ascii_ace P = false -> utf8 n src -> c_string src -> uts46_to_unicode U P l n ps r ->
  (forall ls s p, dotted ls n -> In (s, p) (combine ls ps) -> (exists e, s = ace e) -> ascii_ldhu p) ->
  Forall (fun p => zlen p <= 63) ps -> zlen r <= 255 -> zlen src < two64 -> unicode_name src r.
Proof.
  intros U P l n ps r src AA H C (_ & _ & (ls & D & F) & _ & DR) LD L63 L255 LS.
  specialize (fun s p => LD ls s p D). assert (NN : Forall (Forall (fun c => 0 <= c)) (split_dots n)).
  { apply split_Forall. eapply Forall_impl; [|exact (utf8_scalar _ _ H)]. unfold scalar. intros; lia. }
  exists (split_dots src), ps. split; [now apply dotted_iff|]. split; [|auto].
  pose proof (utf8_split _ _ H) as US. apply dotted_iff in D. rewrite D in US, NN. clear - AA US F LD L63 NN. revert US. generalize (split_dots src). 
  induction F as [|s p ls ps X F IH]; intros bs US; inversion US as [|? s8 ? bs' H US']; subst; [constructor|].
  inversion L63; subst. inversion NN; subst. constructor.
  - eapply process_unicode; eauto. apply (LD s p). now left.
  - apply IH; auto. intros a b I. apply LD. now right.
Qed.

(** "Xn--bCher-kva.ex". *)
Definition xn_upper' := [88;110;45;45;98;67;104;101;114;45;107;118;97;46;101;120].
Lemma case_uni_uts46 : uts46_to_unicode ucd (lib_params 0 true false) xn_upper' xn_buecher [uml_label; [101;120]] [98;252;99;104;101;114;46;101;120] /\
  utf8 xn_buecher xn_buecher /\ c_string xn_buecher /\ unicode xn_buecher = Ok [98;252;99;104;101;114;46;101;120] /\
  (forall ls s p, dotted ls xn_buecher -> In (s, p) (combine ls [uml_label; [101;120]]) -> (exists e, s = ace e) -> ascii_ldhu p).
Proof.
  split; [split; [|split; [|split; [|split]]]|split; [|split; [|split]]].
  - apply Forall_forall. intros c Hc. cbn [In xn_upper'] in Hc. repeat (destruct Hc as [<-|Hc]; [vm_compute; discriminate|]). destruct Hc.
  - vm_compute. reflexivity.
  - exists [ace [98;99;104;101;114;45;107;118;97]; [101;120]]. split; [apply dotted_iff; vm_compute; reflexivity|]. constructor; [|constructor; [|constructor]].
    + assert (Y : rfc_encodes uml_label [98;99;104;101;114;45;107;118;97]) by (apply encodes_by; vm_compute; reflexivity).
      apply (pl_ace _ _ _ [98;99;104;101;114;45;107;118;97]); [reflexivity|repeat constructor|apply Y| | |apply valid_by; vm_compute; reflexivity].
      * repeat (apply Forall_cons; [unfold scalar; lia|]). apply Forall_nil.
      * intros _. right; left. lia.
    + apply pl_plain; [apply not_xn; reflexivity|apply valid_by; vm_compute; reflexivity].
  - intros _ X. exfalso. apply Exists_exists in X. destruct X as (p & Hp & X). apply Exists_exists in X. destruct X as (c & Hc & X).
    destruct Hp as [<-|[<-|[]]]; cbn [In uml_label] in Hc; repeat (destruct Hc as [<-|Hc]; [vm_compute in X; intuition discriminate|]); destruct Hc.
  - apply dotted_iff. vm_compute. reflexivity.
  - apply u32_to_u8_iff. vm_compute. reflexivity.
  - unfold c_string, xn_buecher. in_range_list.
  - vm_compute. reflexivity.
  - intros ls s p D I _. apply dotted_iff in D. subst ls. cbn [combine] in I. change (split_dots xn_buecher) with [ace [98;99;104;101;114;45;107;118;97]; [101;120]] in I.
    cbn [combine In] in I. assert (p = uml_label \/ p = [101;120]) as [-> | ->] by (destruct I as [I|[I|[]]]; injection I; auto);
    apply Forall_forall; intros c Hc; cbn [In uml_label] in Hc; repeat (destruct Hc as [<-|Hc]; [intros; unfold ldh_or_underscore; lia|]); destruct Hc.
Qed.

(** Upper case is not mapped: U+00DC. *)
Lemma unicode_no_mapping : exists src l r ps, c_string src /\ utf8 l src /\ unicode src = Ok r /\
  uts46_to_unicode ucd (lib_params 0 true false) l [252] ps [252] /\ r <> [252].
Proof.
  exists [195;156], [220], [220], [[252]]. split; [unfold c_string; in_range_list|]. split; [apply u32_to_u8_iff; reflexivity|]. split; [vm_compute; reflexivity|].
  split; [|discriminate]. split; [|split; [|split; [|split]]].
  - apply Forall_forall. intros c [<-|[]]. vm_compute. discriminate.
  - vm_compute. reflexivity.
  - exists [[252]]. split; [apply dotted_iff; reflexivity|]. constructor; [|constructor]. apply pl_plain; [apply not_xn; reflexivity|apply valid_by; vm_compute; reflexivity].
  - intros _ X. exfalso. apply Exists_exists in X. destruct X as (p & [<-|[]] & X). apply Exists_exists in X. destruct X as (c & [<-|[]] & X). vm_compute in X. intuition discriminate.
  - apply dotted_iff. reflexivity.
Qed.
(** What UTS #46 disallows passes: U+FFFD. *)
Lemma unicode_no_check : exists src l r, c_string src /\ utf8 l src /\ unicode src = Ok r /\ forall P n ps r', ~ uts46_to_unicode ucd P l n ps r'.
Proof.
  exists [239;191;189], [0xFFFD], [0xFFFD]. split; [unfold c_string; in_range_list|]. split; [apply u32_to_u8_iff; reflexivity|]. split; [vm_compute; reflexivity|].
  intros P n ps r' (ND & _). apply Forall_inv in ND. apply ND. unfold effective. assert (E : status_of 0xFFFD = Disallowed) by (vm_compute; reflexivity). now rewrite E.
Qed.
(** So do A-labels for it: xn--zn7c. *)
Lemma unicode_no_check_ace : exists src l r, c_string src /\ utf8 l src /\ unicode src = Ok r /\ forall P n ps r', ~ uts46_to_unicode ucd P l n ps r'.
Proof.
  exists (ace [122;110;55;99]), (ace [122;110;55;99]), [0xFFFD]. split; [unfold c_string, ace; in_range_list|].
  split; [apply u32_to_u8_iff; vm_compute; reflexivity|]. split; [vm_compute; reflexivity|].
  intros P n ps r' (_ & E & (ls & D & F) & _). assert (n = ace [122;110;55;99]) as ->.
  { assert (M : flat_map (map_char P) (ace [122;110;55;99]) = ace [122;110;55;99]).
    { unfold ace, map_char, effective. cbn [flat_map app]. 
      assert (S : Forall (fun c => status_of c = Valid) [120;110;45;45;122;55;99]) by (repeat (apply Forall_cons; [vm_compute; reflexivity|]); apply Forall_nil).
      rewrite Forall_forall in S. rewrite !S by (cbn [In]; tauto). reflexivity. }
    rewrite M in E. vm_compute in E. unfold ace. congruence. }
  apply dotted_iff in D. assert (ls = [ace [122;110;55;99]]) as -> by (rewrite <- D; vm_compute; reflexivity).
  inversion F as [|? p1 ? ps1 F1 F2]; subst. destruct F1 as [e p X _ R _ _ V|X V]; [|apply X; now exists [122;110;55;99]].
  apply ace_inj in X. subst e. assert (p = [0xFFFD]) as ->.
  { apply (PunyDet.rfc_decodes_det _ _ _ R). assert (Y : rfc_encodes [0xFFFD] [122;110;55;99]) by (apply encodes_by; vm_compute; reflexivity). apply Y. }
  destruct V as [_ _ _ _ V _]. apply Forall_inv in V. unfold effective in V. assert (S : status_of 0xFFFD = Disallowed) by (vm_compute; reflexivity). rewrite S in V. intuition discriminate.
Qed.
