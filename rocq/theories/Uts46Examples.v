(** Packaging for PropUts46.v. *)
From Verif Require Import Base PunyBase Puny PunyDet PunyComplete PunyExact PunyInv PunyTop Uenv DataTypes SpecUtf8 SpecPuny SpecTables SpecBidi SpecContext SpecLabel SpecNfc
  SpecLookup SpecToAscii SpecUts46 Lookup MapProofs LookupTr46 LookupIdem ToAsciiProofs Compose Uts46Proofs Utf8 Utf8Proofs Tr46Facts Ucd UcdProofs BaseTop LookupExamples ApiExamples AcceptExamples.

Lemma uts46_sound14 : forall dns src f l r, c_string src -> zlen src < two64 -> opt_no_tr46 f = false -> opt_no_roundtrip f = false -> utf8 l src ->
  (opt_std3 f = true -> Forall (fun c => ~ is_std3 c) l) ->
  (opt_std3 f = false -> no_a_label_with (fun c => status_of c = Std3Mapped) r) ->
  (dns = true -> no_empty_label r) ->
  lookup_u8 ucd src f = Ok r -> exists ps, uts46_to_ascii ucd (lib_params f false dns) l ps r.
Proof. intros dns src f. apply uts46_sound. exact ucd_nfc_ok. Qed.

(** ** Concrete names *)
Lemma valid_by : forall P tr p, ue_nfc ucd p = Some p ->
  forallb (fun c => negb (c =? 45) && negb (c =? 46) && negb (c =? 0x200C) && negb (c =? 0x200D) && status_eqb (effective (use_std3 P) c) Valid) p = true ->
  match p with c :: _ => ue_mark ucd c = false | [] => True end -> valid_label ucd P tr p.
Proof.
  intros P tr p N H M. rewrite forallb_forall in H.
  assert (X : forall c, In c p -> c <> 45 /\ c <> 46 /\ c <> 0x200C /\ c <> 0x200D /\ effective (use_std3 P) c = Valid).
  { intros c Hc. specialize (H c Hc). rewrite !andb_true_iff, !negb_true_iff, !Z.eqb_neq in H. destruct H as ((((? & ?) & ?) & ?) & E). apply status_eqb_iff in E. auto. }
  clear H. constructor.
  - exact N.
  - intros _. split; [intros (a & b & r & ->); destruct (X 45) as (Y & _); [right; right; now left|congruence]|].
    split; intros r ->; destruct (X 45) as (Y & _); try congruence; [now left|apply in_or_app; right; now left].
  - apply Forall_forall. intros c Hc. now apply X.
  - intros (c & r & -> & Y). congruence.
  - apply Forall_forall. intros c Hc. left. now apply X.
  - intros _ pre c post ->. destruct (X c) as (_ & _ & Y1 & Y2 & _); [apply in_or_app; right; now left|]. split; intros ->; congruence.
Qed.
Lemma encodes_by : forall p e, forallb (fun c => ((0 <=? c) && (c <=? 55295)) || ((57344 <=? c) && (c <=? 1114111))) p = true -> puny_encode p 59 59 = Ok e -> rfc_encodes p e.
Proof.
  intros p e H E. apply encodes_iff in E; [tauto|]. rewrite forallb_forall in H. apply Forall_forall. intros c Hc. specialize (H c Hc).
  rewrite orb_true_iff, !andb_true_iff, !Z.leb_le in H. unfold scalar. lia.
Qed.
Lemma not_xn : forall s, (hd 0 s =? 120) = false -> ~ xn s.
Proof. intros s H (t & ->). discriminate. Qed.

Definition uml_label : list Z := [98;252;99;104;101;114].
Lemma case_labels : uts46_to_ascii ucd (lib_params 0 true true) buecher4 [uml_label; [101;120]] xn_buecher.
Proof.
  exists [98;252;99;104;101;114;46;101;120], [uml_label; [101;120]], [ace [98;99;104;101;114;45;107;118;97]; [101;120]].
  split. { apply Forall_forall. intros c Hc. cbn [In buecher4] in Hc. repeat (destruct Hc as [<-|Hc]; [vm_compute; discriminate|]). destruct Hc. }
  split; [vm_compute; reflexivity|]. split; [apply dotted_iff; vm_compute; reflexivity|]. split.
  { constructor; [|constructor; [|constructor]]; (apply pl_plain; [apply not_xn; reflexivity|apply valid_by; vm_compute; reflexivity]). }
  split. { intros _ X. exfalso. apply Exists_exists in X. destruct X as (p & Hp & X). apply Exists_exists in X. destruct X as (c & Hc & X).
    destruct Hp as [<-|[<-|[]]]; cbn [In uml_label] in Hc; repeat (destruct Hc as [<-|Hc]; [vm_compute in X; intuition discriminate|]); destruct Hc. }
  split. { constructor; [apply el_ace|constructor; [apply el_ascii|constructor]].
    - right; left. lia.
    - apply encodes_by; vm_compute; reflexivity.
    - repeat constructor. }
  split; [apply dotted_iff; vm_compute; reflexivity|]. intros _. eexists. split; [left; reflexivity|]. split; [discriminate|]. split; [|vm_compute; discriminate].
  repeat constructor; vm_compute; discriminate.
Qed.
Lemma case_chars : Forall (idna2008_chars (opt_std3 0)) [uml_label; [101;120]] /\ zlen (flat_map (map_char (lib_params 0 true true)) buecher4) < 255.
Proof.
  split; [|vm_compute; reflexivity]. constructor; [|constructor; [|constructor]].
  - intros _. split; [|split]; apply Forall_forall; intros c Hc; cbn [In uml_label] in Hc; repeat (destruct Hc as [<-|Hc]; [first [left; vm_compute; discriminate|vm_compute; discriminate|unfold ldh_or_underscore; lia]|]); destruct Hc.
  - intros X. exfalso. inversion X as [? ? Y|? ? Y]; subst; [lia|]. inversion Y as [? ? Y'|? ? Y']; subst; [lia|inversion Y'].
Qed.
Lemma case_no_mapped : no_a_label_with (fun c => status_of c = Std3Mapped) xn_buecher /\ no_empty_label xn_buecher.
Proof.
  assert (E : forall ds, dotted ds xn_buecher -> ds = [ace [98;99;104;101;114;45;107;118;97]; [101;120]]) by (intros ds D; apply dotted_iff in D; rewrite <- D; vm_compute; reflexivity).
  split.
  - intros ds e p D I R. rewrite (E ds D) in I. destruct I as [I|[I|[]]]; [|discriminate]. apply ace_inj in I. subst e.
    assert (p = uml_label) as ->.
    { apply (rfc_decodes_det _ _ _ R). assert (Y : rfc_encodes uml_label [98;99;104;101;114;45;107;118;97]) by (apply encodes_by; vm_compute; reflexivity). apply Y. }
    apply Forall_forall. intros c Hc. cbn [In uml_label] in Hc. repeat (destruct Hc as [<-|Hc]; [vm_compute; discriminate|]). destruct Hc.
  - intros ds D. exists ds. rewrite (E ds D). split; [now left|]. split; [discriminate|]. repeat constructor; discriminate.
Qed.
Lemma case_uts46 : nfc_ok ucd /\ utf8 buecher4 buecher /\ c_string buecher /\ lookup_u8 ucd buecher 0 = Ok xn_buecher /\
  no_a_label_with (fun c => status_of c = Std3Mapped) xn_buecher /\ no_empty_label xn_buecher /\
  uts46_to_ascii ucd (lib_params 0 true true) buecher4 [uml_label; [101;120]] xn_buecher /\
  Forall (idna2008_chars (opt_std3 0)) [uml_label; [101;120]] /\ zlen (flat_map (map_char (lib_params 0 true true)) buecher4) < 255.
Proof.
  split; [exact ucd_nfc_ok|]. split; [exact buecher_utf8|]. split; [exact buecher_c|]. split; [exact (proj2 (proj2 case_buecher))|].
  split; [exact (proj1 case_no_mapped)|]. split; [exact (proj2 case_no_mapped)|]. split; [exact case_labels|]. exact case_chars.
Qed.

(** ** Where the two differ *)


(** "1.א": the second label makes it a Bidi domain name, the first begins with a digit. *)
Lemma bidi_refuted : exists src l r, c_string src /\ utf8 l src /\ lookup_u8 ucd src 0 = Ok r /\ forall ps r', ~ uts46_to_ascii ucd (lib_params 0 true false) l ps r'.
Proof.
  exists [49;46;215;144], [49;46;1488], [49;46;120;110;45;45;52;100;98]. split; [unfold c_string; in_range_list|].
  split; [apply u32_to_u8_iff; vm_compute; reflexivity|]. split; [vm_compute; reflexivity|].
  intros ps r' (n & ls & ds & _ & E & D & F & BC & _). assert (n = [49;46;1488]) as -> by (vm_compute in E; congruence).
  apply dotted_iff in D. assert (ls = [[49];[1488]]) as -> by (rewrite <- D; vm_compute; reflexivity).
  inversion F as [|? p1 ? ps1 F1 F2]; subst. inversion F2 as [|? p2 ? ps2 F3 F4]; subst. clear F F2 F4.
  assert (p1 = [49]) as -> by (destruct F1 as [e p X _ _ _ _ _|]; [discriminate X|reflexivity]).
  assert (p2 = [1488]) as -> by (destruct F3 as [e p X _ _ _ _ _|]; [discriminate X|reflexivity]).
  assert (X : rfc5893 (ue_bidi ucd) [49]).
  { assert (Y : Exists (has_rtl (ue_bidi ucd)) ([49] :: [1488] :: ps2)) by (right; left; left; vm_compute; auto). specialize (BC eq_refl Y). now inversion BC. }
  destruct X as (R1 & _). destruct R1 as [(c & t & X & R1)|(c & t & X & R1)]; injection X as <- _; vm_compute in R1; intuition discriminate.
Qed.

(** "a_b" under STD3 rules. *)
Lemma std3_refuted : exists src l r, c_string src /\ utf8 l src /\ lookup_u8 ucd src IDN2_USE_STD3_ASCII_RULES = Ok r /\
  forall ps r', ~ uts46_to_ascii ucd (lib_params IDN2_USE_STD3_ASCII_RULES false false) l ps r'.
Proof.
  exists [97;95;98], [97;95;98], [97;98]. split; [unfold c_string; in_range_list|]. split; [apply u32_to_u8_iff; vm_compute; reflexivity|]. split; [vm_compute; reflexivity|].
  intros ps r' (n & ls & ds & ND & _). apply Forall_inv_tail, Forall_inv in ND. apply ND. vm_compute. reflexivity.
Qed.

(** The A-label of U+2474, which is no valid character but mapped. *)
Lemma mapped_refuted : exists src l r, c_string src /\ utf8 l src /\ lookup_u8 ucd src 0 = Ok r /\ forall ps r', ~ uts46_to_ascii ucd (lib_params 0 false false) l ps r'.
Proof.
  exists (ace [56;114;104]), (ace [56;114;104]), (ace [56;114;104]). split; [unfold c_string, ace; in_range_list|].
  split; [apply u32_to_u8_iff; vm_compute; reflexivity|]. split; [vm_compute; reflexivity|].
  intros ps r' (n & ls & ds & _ & E & D & F & _). assert (n = ace [56;114;104]) as -> by (vm_compute in E; unfold ace; congruence).
  apply dotted_iff in D. assert (ls = [ace [56;114;104]]) as -> by (rewrite <- D; vm_compute; reflexivity).
  inversion F as [|? p1 ? ps1 F1 F2]; subst. destruct F1 as [e p X _ R _ _ V|X V]; [|apply X; now exists [56;114;104]].
  apply ace_inj in X. subst e. assert (p = [0x2474]) as ->.
  { apply (rfc_decodes_det _ _ _ R). assert (Y : rfc_encodes [0x2474] [56;114;104]) by (apply encodes_by; vm_compute; reflexivity). apply Y. }
  destruct V as [_ _ _ _ V _]. apply Forall_inv in V. vm_compute in V. intuition discriminate.
Qed.

(** The A-label of "a", ZERO WIDTH JOINER, "b" in transitional mode; UTS #46 with CheckJoiners. *)
Lemma joiners_refuted : exists src l r, c_string src /\ utf8 l src /\ lookup_u8 ucd src IDN2_TRANSITIONAL = Ok r /\
  forall ps r', ~ uts46_to_ascii ucd (Params false true true false true false false) l ps r'.
Proof.
  pose (e0 := [97;98;45;109;49;116]). exists (ace e0), (ace e0), (ace e0). split; [unfold c_string, ace, e0; in_range_list|].
  split; [apply u32_to_u8_iff; vm_compute; reflexivity|]. split; [vm_compute; reflexivity|].
  intros ps r' (n & ls & ds & _ & E & D & F & _). assert (n = ace e0) as -> by (vm_compute in E; unfold ace, e0; congruence).
  apply dotted_iff in D. assert (ls = [ace e0]) as -> by (rewrite <- D; vm_compute; reflexivity).
  inversion F as [|? p1 ? ps1 F1 F2]; subst. destruct F1 as [e p X _ R _ _ V|X V]; [|apply X; now exists e0].
  apply ace_inj in X. subst e. assert (p = [97;8205;98]) as ->.
  { apply (rfc_decodes_det _ _ _ R). assert (Y : rfc_encodes [97;8205;98] e0) by (apply encodes_by; vm_compute; reflexivity). apply Y. }
  destruct V as [_ _ _ _ _ V]. destruct (V eq_refl [97] 8205 [98] eq_refl) as (_ & W). destruct (W eq_refl) as (q & v & X & CC).
  destruct q as [|? [|? ?]]; try discriminate. injection X as <-. vm_compute in CC. discriminate.
Qed.

(** "a..b": an empty label. *)
Lemma empty_refuted : exists src l r, c_string src /\ utf8 l src /\ lookup_u8 ucd src 0 = Ok r /\ forall ps r', ~ uts46_to_ascii ucd (lib_params 0 false true) l ps r'.
Proof.
  exists [97;46;46;98], [97;46;46;98], [97;46;46;98]. split; [unfold c_string; in_range_list|]. split; [apply u32_to_u8_iff; vm_compute; reflexivity|]. split; [vm_compute; reflexivity|].
  intros ps r' (n & ls & ds & _ & E & D & F & _ & G & _ & DL). assert (n = [97;46;46;98]) as -> by (vm_compute in E; congruence).
  apply dotted_iff in D. assert (ls = [[97];[];[98]]) as -> by (rewrite <- D; vm_compute; reflexivity).
  inversion F as [|? p1 ? ps1 F1 F2]; subst. inversion F2 as [|? p2 ? ps2 F3 F4]; subst. inversion F4 as [|? p3 ? ps3 F5 F6]; subst. inversion F6; subst.
  assert (p2 = []) as -> by (destruct F3 as [e p X _ _ _ _ _|]; [discriminate X|reflexivity]).
  inversion G as [|? d1 ? ds1 G1 G2]; subst. inversion G2 as [|? d2 ? ds2 G3 G4]; subst. inversion G4 as [|? d3 ? ds3 G5 G6]; subst. inversion G6; subst.
  assert (d2 = []) as -> by (destruct G3 as [|e X _]; [reflexivity|inversion X]).
  destruct (DL eq_refl) as (core & C & _ & FC & _). destruct C as [<-|C].
  - apply Forall_inv_tail, Forall_inv in FC. vm_compute in FC. intuition congruence.
  - destruct core as [|c1 [|c2 core]]; try discriminate. assert (c2 = []) as -> by (cbn [app] in C; congruence).
    apply Forall_inv_tail, Forall_inv in FC. vm_compute in FC. intuition congruence.
Qed.

(** The snowman U+2603, valid in UTS #46 and disallowed in IDNA2008. *)
Lemma snowman_refuted : exists src l ps r rc, c_string src /\ utf8 l src /\ uts46_to_ascii ucd (lib_params 0 true true) l ps r /\ lookup_u8 ucd src 0 = Fail rc.
Proof.
  exists [226;152;131], [0x2603], [[0x2603]], (ace [110;51;104]), IDN2_DISALLOWED. split; [unfold c_string; in_range_list|]. split; [apply u32_to_u8_iff; vm_compute; reflexivity|].
  split; [|vm_compute; reflexivity]. exists [0x2603], [[0x2603]], [ace [110;51;104]].
  split; [repeat constructor; vm_compute; discriminate|]. split; [vm_compute; reflexivity|]. split; [apply dotted_iff; vm_compute; reflexivity|].
  split; [constructor; [apply pl_plain; [apply not_xn; reflexivity|apply valid_by; vm_compute; reflexivity]|constructor]|].
  split. { intros _ X. exfalso. apply Exists_exists in X. destruct X as (p & [<-|[]] & X). inversion X as [? ? Y|? ? Y]; subst; [vm_compute in Y; intuition discriminate|inversion Y]. }
  split; [constructor; [apply el_ace; [left; lia|apply encodes_by; vm_compute; reflexivity]|constructor]|].
  split; [apply dotted_iff; vm_compute; reflexivity|]. intros _. eexists. split; [left; reflexivity|]. split; [discriminate|].
  split; [repeat constructor; vm_compute; discriminate|vm_compute; discriminate].
Qed.

(** Three labels of fifty letters e with combining acute accent each: more than 254
    characters before normalisation, a short name after it. *)
Definition accents (k : nat) : list Z := flat_map (fun _ => [101;769]) (repeat tt k).
Definition composed : list Z := repeat 233 50.
Definition composed_ace : list Z := match puny_encode composed 59 59 with Ok e => e | _ => [] end.
Lemma length_refuted : exists src l ps r rc, c_string src /\ utf8 l src /\ uts46_to_ascii ucd (lib_params 0 true true) l ps r /\
  Forall (idna2008_chars (opt_std3 0)) ps /\ lookup_u8 ucd src 0 = Fail rc.
Proof.
  pose (l := join [accents 50; accents 50; accents 50]).
  exists (match u32_to_u8 l with Some s => s | None => [] end), l, [composed; composed; composed], (join [ace composed_ace; ace composed_ace; ace composed_ace]), IDN2_TOO_BIG_DOMAIN.
  split. { apply Forall_forall. assert (B : forallb (fun b => (1 <=? b) && (b <? 256)) (match u32_to_u8 l with Some s => s | None => [] end) = true) by (vm_compute; reflexivity).
    rewrite forallb_forall in B. intros b Hb. specialize (B b Hb). zb. lia. }
  split; [apply u32_to_u8_iff; vm_compute; reflexivity|].
  split; [|split; [|vm_compute; reflexivity]].
  - exists (join [composed; composed; composed]), [composed; composed; composed], [ace composed_ace; ace composed_ace; ace composed_ace].
    split. { unfold no_disallowed. apply Forall_forall. intros c Hc. assert (c = 101 \/ c = 769 \/ c = 46) as X.
      { assert (B : forallb (fun c => (c =? 101) || (c =? 769) || (c =? 46)) l = true) by (vm_compute; reflexivity). rewrite forallb_forall in B. specialize (B c Hc). zb. lia. }
      destruct X as [->|[->| ->]]; vm_compute; discriminate. }
    split; [vm_compute; reflexivity|]. split; [apply dotted_iff; vm_compute; reflexivity|].
    split. { assert (X : process_label ucd (lib_params 0 true true) composed composed) by (apply pl_plain; [apply not_xn; reflexivity|apply valid_by; vm_compute; reflexivity]).
      repeat (constructor; [exact X|]). constructor. }
    split. { intros _ X. exfalso. assert (N : ~ has_rtl (ue_bidi ucd) composed).
      { intros Y. apply Exists_exists in Y. destruct Y as (c & Hc & Y). apply repeat_spec in Hc. subst c. vm_compute in Y. intuition discriminate. }
      apply Exists_exists in X. destruct X as (p & [<-|[<-|[<-|[]]]] & X); exact (N X). }
    split. { assert (X : encode_label composed (ace composed_ace)) by (apply el_ace; [left; lia|apply encodes_by; vm_compute; reflexivity]).
      repeat (constructor; [exact X|]). constructor. }
    split; [apply dotted_iff; vm_compute; reflexivity|]. intros _. eexists. split; [left; reflexivity|]. split; [discriminate|].
    split; [|vm_compute; discriminate]. assert (X : 1 <= zlen (ace composed_ace) <= 63) by (split; vm_compute; discriminate).
    repeat (constructor; [exact X|]). constructor.
  - assert (X : idna2008_chars (opt_std3 0) composed).
    { intros _. split; [|split]; apply Forall_forall; intros c Hc; apply repeat_spec in Hc; subst c; [left; vm_compute; discriminate|vm_compute; discriminate|lia]. }
    repeat (constructor; [exact X|]). constructor.
Qed.
