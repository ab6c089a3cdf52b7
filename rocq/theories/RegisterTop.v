(** The registration functions with their pointer arguments, and concrete cases. *)
From Verif Require Import Base PunyBase Uenv DataTypes SpecUtf8 SpecPuny SpecTables SpecLabel SpecNfc SpecLookup SpecRegister SpecApi Utf8 Utf8Proofs Idna Puny
  Lookup LabelProofs NfcProofs MapProofs LookupProofs LookupIdem LookupTr46 RoundTrip Api ApiProofs Register RegisterProofs RegLookup Ucd UcdProofs BaseTop
  LookupExamples ApiExamples.

Definition reg_function := ptr -> ptr -> cell -> Z -> result.
Definition reg_functions (U : uenv) (L : locale) : list reg_function := [register_u8 U; register_ul U L].

Lemma errors_nonzero : forall rc, In rc register_errors -> rc <> IDN2_OK.
Proof. intros rc I E. subst rc. revert I. unfold register_errors. cbn. intuition discriminate. Qed.
Lemma deliver_ok : forall q m a, (forall rc, m = Fail rc -> rc <> IDN2_OK) -> (deliver (Some q) m = Ok (IDN2_OK, Some (Some a)) <-> m = Ok a).
Proof.
  intros q m a N. split; [|intros ->; reflexivity]. destruct m as [r|rc| |]; cbn [deliver store]; intros H; try discriminate.
  - congruence.
  - exfalso. apply (N rc eq_refl). congruence.
Qed.
Lemma reg_u_nz : forall U u f rc, nfc_ok U -> c_string u -> reg_ulabel U u f = Fail rc -> rc <> IDN2_OK.
Proof. intros U u f rc K C H. pose proof (reg_u_codes U u f K C) as X. rewrite H in X. now apply errors_nonzero. Qed.
Lemma reg_a_nz : forall U u a rc, nfc_ok U -> c_string a -> reg_alabel U u a = Fail rc -> rc <> IDN2_OK.
Proof. intros U u a rc K C H. pose proof (reg_a_codes U u a K C) as X. rewrite H in X. now apply errors_nonzero. Qed.

(** ** U-label alone *)
Lemma register_sound : forall U u f q a, nfc_ok U -> (opt_nfc f = true -> nfc_no_ldh U) -> c_string u ->
  register_u8 U (Some u) None (Some q) f = Ok (IDN2_OK, Some (Some a)) ->
  (ascii_string u /\ zlen u <= 63 /\ a = u) \/
  (~ ascii_string u /\ exists l m, utf8 l u /\ reg_normal U f l m /\ registrable U m /\ a_label m a).
Proof.
  intros U u f q a K NL C H. apply (reg_u_sound U u f a K NL C). apply (deliver_ok q); [intros rc; now apply reg_u_nz|exact H].
Qed.
Lemma register_shape : forall U u f q a, nfc_ok U -> (opt_nfc f = true -> nfc_no_ldh U) -> c_string u ->
  register_u8 U (Some u) None (Some q) f = Ok (IDN2_OK, Some (Some a)) -> ascii_string a /\ zlen a <= 63.
Proof.
  intros U u f q a K NL C H. apply register_sound in H; auto. destruct H as [(A & Z & ->)|(_ & l & m & _ & _ & _ & _ & _ & t & -> & LW & Z & _)]; [auto|].
  split; [|exact Z]. unfold ascii_string. repeat (apply Forall_cons; [lia|]). revert LW. apply Forall_impl. unfold lower_ldh. lia.
Qed.
Lemma register_complete : forall U u f q l m a, nfc_ok U -> c_string u -> ~ ascii_string u -> utf8 l u -> reg_normal U f l m ->
  (opt_nfc f = true -> l = m \/ (qc_sound U /\ Forall (fun c => ~ supplementary c) l)) ->
  registrable U m -> a_label m a -> register_u8 U (Some u) None (Some q) f = Ok (IDN2_OK, Some (Some a)).
Proof. intros U u f q l m a K C N E R Q G A. cbn [register_u8]. rewrite (reg_u_complete U u f l m a); auto. Qed.
Lemma register_ascii : forall U u f q, ascii_string u -> register_u8 U (Some u) None (Some q) f =
  if zlen u <=? 63 then Ok (IDN2_OK, Some (Some u)) else Ok (IDN2_TOO_BIG_LABEL, Some q).
Proof. intros U u f q A. cbn [register_u8]. rewrite reg_u_ascii by auto. destruct (zlen u <=? 63); reflexivity. Qed.

(** ** With an A-label *)
Lemma register_alabel : forall U u a q f r, nfc_ok U -> c_string a ->
  (register_u8 U u (Some a) (Some q) f = Ok (IDN2_OK, Some (Some r)) <->
   r = a /\ exists l, a_label l a /\ registrable U l /\ (forall x, u = Some x -> utf8 l x)).
Proof.
  intros U u a q f r K C. rewrite <- (reg_a_iff U u a r K C). unfold register_u8. apply deliver_ok. intros rc. now apply reg_a_nz.
Qed.
Lemma register_mismatch : forall U x a l o f, a_label l a -> ~ utf8 l x -> register_u8 U (Some x) (Some a) o f = Ok (IDN2_UALABEL_MISMATCH, o).
Proof. intros U x a l o f A N. unfold register_u8. now rewrite (reg_a_mismatch U x a l). Qed.
Lemma register_not_alabel : forall U u a q f, nfc_ok U -> c_string a -> (forall l, ~ a_label l a) ->
  exists rc, register_u8 U u (Some a) (Some q) f = Ok (rc, Some q) /\ rc <> IDN2_OK.
Proof.
  intros U u a q f K C N. unfold register_u8. pose proof (reg_a_codes U u a K C) as R. destruct (reg_alabel U u a) as [r|rc| |] eqn:E; try contradiction.
  - exfalso. apply reg_a_iff in E; auto. destruct E as (_ & l & A & _). exact (N l A).
  - exists rc. split; [reflexivity|now apply errors_nonzero].
Qed.
Lemma a_label_ascii : forall l a, a_label l a -> ascii_string a.
Proof.
  intros l a (_ & _ & t & -> & LW & _). unfold ascii_string. repeat (apply Forall_cons; [lia|]). revert LW. apply Forall_impl. unfold lower_ldh. lia.
Qed.
Lemma ascii_c : forall s, ascii_string s -> c_string s.
Proof. intros s. apply Forall_impl. lia. Qed.
Lemma register_round_trip : forall U u f q a, nfc_ok U -> (opt_nfc f = true -> nfc_no_ldh U) -> c_string u -> ~ ascii_string u ->
  register_u8 U (Some u) None (Some q) f = Ok (IDN2_OK, Some (Some a)) ->
  exists l m v, utf8 l u /\ reg_normal U f l m /\ utf8 m v /\ forall q' f',
    register_u8 U None (Some a) (Some q') f' = Ok (IDN2_OK, Some (Some a)) /\
    register_u8 U (Some v) (Some a) (Some q') f' = Ok (IDN2_OK, Some (Some a)) /\
    register_u8 U (Some v) None (Some q') f' = Ok (IDN2_OK, Some (Some a)).
Proof.
  intros U u f q a K NL C NA H. apply register_sound in H; auto. destruct H as [(X & _)|(_ & l & m & EU & RN & R & A)]; [contradiction|].
  pose proof A as (SM & X & _). destruct (u32_to_u8_total m SM) as (v & V). apply u32_to_u8_iff in V. exists l, m, v.
  split; [exact EU|]. split; [exact RN|]. split; [exact V|]. intros q' f'. pose proof (ascii_c _ (a_label_ascii _ _ A)) as CA.
  split; [|split].
  - apply register_alabel; auto. split; [reflexivity|]. exists m. split; [exact A|]. split; [exact R|]. discriminate.
  - apply register_alabel; auto. split; [reflexivity|]. exists m. split; [exact A|]. split; [exact R|]. intros x E. injection E as <-. exact V.
  - assert (NV : ~ ascii_string v).
    { intros AV. assert (m = v) as -> by (apply utf8_ascii_eq; auto; revert AV; apply Forall_impl; lia).
      apply Exists_exists in X. destruct X as (c & I & G). unfold ascii_string in AV. rewrite Forall_forall in AV. apply AV in I. lia. }
    assert (CV : c_string v).
    { pose proof (utf8_bytes _ _ V) as BB. apply Forall_forall. intros x I. assert (x <> 0).
      { intros ->. apply (utf8_In m v 0 V) in I; [|lia]. revert I. now apply registrable_no0 with (U := U). }
      unfold bytes in BB. rewrite Forall_forall in BB. specialize (BB x I). lia. }
    apply (register_complete U v f' q' m m a); auto. unfold reg_normal. destruct (opt_nfc f'); [exact (reg_nfc _ _ R)|reflexivity].
Qed.

(** ** Codes, pointers *)
Lemma register_codes : forall U u a o f, nfc_ok U -> (forall s, u = Some s -> c_string s) -> (forall s, a = Some s -> c_string s) ->
  match register_u8 U u a o f with
  | Ok (rc, o') => (rc = IDN2_OK /\ forall r, o' = Some (Some r) -> o <> None -> zlen r <= 63) \/ (In rc register_errors /\ o' = o)
  | _ => False
  end.
Proof.
  intros U u a o f K CU CA. unfold register_u8. destruct a as [a|].
  - pose proof (reg_a_codes U u a K (CA a eq_refl)) as R. destruct (reg_alabel U u a); try contradiction; cbn [deliver]; [left|right; auto].
    split; [reflexivity|]. intros r E _. destruct o; cbn [store] in E; [|discriminate]. injection E as <-. exact R.
  - destruct u as [u|].
    + pose proof (reg_u_codes U u f K (CU u eq_refl)) as R. destruct (reg_ulabel U u f); try contradiction; cbn [deliver]; [left|right; auto].
      split; [reflexivity|]. intros r E _. destruct o; cbn [store] in E; [|discriminate]. injection E as <-. exact R.
    + left. split; [reflexivity|]. intros r E _. destruct o; discriminate.
Qed.
Lemma register_locale : forall U L u a o f,
  register_ul U L u a o f =
  match u with
  | None => register_u8 U None a o (Z.lor f IDN2_NFC_INPUT)
  | Some x => match from_locale L x with
              | Some s => register_u8 U (Some s) a o (Z.lor f IDN2_NFC_INPUT)
              | None => Ok (IDN2_ICONV_FAIL, o)
              end
  end.
Proof. intros U L [x|] a o f; [cbn [register_ul]; destruct (from_locale L x); reflexivity|reflexivity]. Qed.
Lemma register_pointers : forall U L R, In R (reg_functions U L) ->
  (forall o f, R None None o f = Ok (IDN2_OK, match o with None => None | Some _ => Some None end)) /\
  (forall u a p f rc c, R u a (Some p) f = Ok (rc, c) -> R u a None f = Ok (rc, None)) /\
  (forall u a p f rc c p', R u a (Some p) f = Ok (rc, c) -> exists c', R u a (Some p') f = Ok (rc, c') /\ (c' = c \/ (c = Some p /\ c' = Some p'))).
Proof.
  intros U. assert (D : forall m, (forall p rc c, deliver (Some p) m = Ok (rc, c) -> deliver None m = Ok (rc, None)) /\
    (forall p rc c p', deliver (Some p) m = Ok (rc, c) -> exists c', deliver (Some p') m = Ok (rc, c') /\ (c' = c \/ (c = Some p /\ c' = Some p')))).
  { intros [r|rc| |]; cbn [deliver store]; (split; [intros p rc1 c H; try discriminate; injection H as <- <-; reflexivity|]); intros p rc1 c p' H; try discriminate; injection H as <- <-; eauto. }
  assert (E : forall R, R = register_u8 U ->
    (forall o f, R None None o f = Ok (IDN2_OK, match o with None => None | Some _ => Some None end)) /\
    (forall u a p f rc c, R u a (Some p) f = Ok (rc, c) -> R u a None f = Ok (rc, None)) /\
    (forall u a p f rc c p', R u a (Some p) f = Ok (rc, c) -> exists c', R u a (Some p') f = Ok (rc, c') /\ (c' = c \/ (c = Some p /\ c' = Some p')))).
  { intros R ->. split; [intros [o|] f; reflexivity|]. split.
    - intros u a p f rc c H. destruct a as [a|]; [exact (proj1 (D _) p rc c H)|]. destruct u as [u|]; [exact (proj1 (D _) p rc c H)|].
      cbn [register_u8 store] in *. injection H as <- <-. reflexivity.
    - intros u a p f rc c p' H. destruct a as [a|]; [exact (proj2 (D _) p rc c p' H)|]. destruct u as [u|]; [exact (proj2 (D _) p rc c p' H)|].
      cbn [register_u8 store] in *. injection H as <- <-. eauto. }
  intros L R [<-|[<-|[]]]; [now apply E|]. destruct (E _ eq_refl) as (E1 & E2 & E3). split; [|split].
  - intros o f. cbn [register_ul]. apply E1.
  - intros u a p f rc c. rewrite !register_locale. destruct u as [x|]; [|apply E2]. destruct (from_locale L x); [apply E2|]. intros H. injection H as <- <-. reflexivity.
  - intros u a p f rc c p'. rewrite !register_locale. destruct u as [x|]; [|apply E3]. destruct (from_locale L x); [apply E3|]. intros H. injection H as <- <-. eauto.
Qed.
(** Errors leave the output pointer alone. *)
Lemma register_untouched : forall U L R, In R (reg_functions U L) -> forall u a o f rc o', R u a o f = Ok (rc, o') -> rc <> IDN2_OK -> o' = o.
Proof.
  assert (E : forall U u a o f rc o', register_u8 U u a o f = Ok (rc, o') -> rc <> IDN2_OK -> o' = o).
  { intros U u a o f rc o' H N. assert (D : forall m, deliver o m = Ok (rc, o') -> o' = o).
    { intros [r|c| |]; cbn [deliver]; intros X; try discriminate; [injection X as <- _; contradiction|injection X as _ ->; reflexivity]. }
    unfold register_u8 in H. destruct a as [a|]; [exact (D _ H)|]. destruct u as [u|]; [exact (D _ H)|]. injection H as <- _. contradiction. }
  intros U L R [<-|[<-|[]]]; [apply E|]. intros u a o f rc o'. rewrite register_locale. destruct u as [x|]; [|apply E].
  destruct (from_locale L x); [apply E|]. intros H _. injection H as _ ->. reflexivity.
Qed.

(** ** Lookup *)
Lemma registered_pair : forall U u a q f, nfc_ok U -> c_string a -> register_u8 U (Some u) (Some a) (Some q) f = Ok (IDN2_OK, Some (Some a)) -> reg_pair U u a.
Proof. intros U u a q f K C H. apply register_alabel in H; auto. destruct H as (_ & l & A & R & E). exists l. auto. Qed.
Lemma registered_lookup : forall U f us rs src r q, nfc_ok U -> Forall2 (reg_pair U) us rs -> dotted us src -> dotted rs r ->
  zlen r <= 253 \/ (zlen r = 254 /\ last rs [] = []) -> ~ bad_flags f -> opt_no_tr46 f = true \/ opt_transitional f = false ->
  idn2_lookup_u8 U (Some src) (Some q) f = Ok (IDN2_OK, Some (Some r)).
Proof. intros U f us rs src r q K F D1 D2 Z B T. cbn [idn2_lookup_u8]. now rewrite (reg_lookup U f us rs src r). Qed.

(** ** Concrete cases *)
Transparent status_of mapping_of.
Definition ue4 : list Z := [98;252;45;53].                        (* "bü-5" *)
Definition ue8 : list Z := [98;195;188;45;53].
Definition xn_ue : list Z := [120;110;45;45;98;45;53;45;104;111;97].
Lemma ue_utf8 : utf8 ue4 ue8. Proof. apply u32_to_u8_iff. reflexivity. Qed.
Lemma ue_reg : registrable ucd ue4.
Proof. apply register_tests; [exact (utf8_scalar _ _ ue_utf8)|]. vm_compute. reflexivity. Qed.
Lemma ue_exists : Exists (fun c => 128 <= c) ue4. Proof. apply Exists_exists. exists 252. split; [cbn; auto|lia]. Qed.
Lemma ue_alabel : a_label ue4 xn_ue.
Proof.
  apply (enc_a_label ue4 [98;45;53;45;104;111;97]); [exact (utf8_scalar _ _ ue_utf8)| |exact ue_exists|vm_compute; reflexivity].
  exact (registrable_ascii ucd ue4 (utf8_scalar _ _ ue_utf8) ue_reg).
Qed.
Lemma ue_c : c_string ue8. Proof. unfold c_string, ue8. in_range_list. Qed.
Lemma ue_na : ~ ascii_string ue8.
Proof. intros A. unfold ascii_string in A. rewrite Forall_forall in A. specialize (A 195 ltac:(cbn; auto)). lia. Qed.
Lemma case_register : nfc_ok ucd /\ nfc_no_ldh ucd /\ qc_sound ucd /\ c_string ue8 /\ ~ ascii_string ue8 /\ utf8 ue4 ue8 /\ registrable ucd ue4 /\ a_label ue4 xn_ue /\
  register_u8 ucd (Some ue8) None (Some None) IDN2_NFC_INPUT = Ok (IDN2_OK, Some (Some xn_ue)) /\
  register_u8 ucd (Some [101;204;129]) None (Some None) IDN2_NFC_INPUT = Ok (IDN2_OK, Some (Some [120;110;45;45;57;99;97])) /\
  register_u8 ucd (Some [101;204;129]) None (Some None) 0 = Ok (IDN2_NOT_NFC, Some None).
Proof.
  split; [exact ucd_nfc_ok|]. split; [exact ucd_no_ldh|]. split; [exact ucd_qc_sound|]. split; [exact ue_c|]. split; [exact ue_na|]. split; [exact ue_utf8|].
  split; [exact ue_reg|]. split; [exact ue_alabel|]. vm_compute. auto.
Qed.
(** U+11099 U+110BA, whose normal form is U+1109A: the loop of _isNFC skips the
    element after a supplementary one, so the unnormalised label is tested and
    refused. *)
Lemma register_supplementary : exists u l m a, nfc_ok ucd /\ qc_sound ucd /\ c_string u /\ utf8 l u /\ ue_nfc ucd l = Some m /\ registrable ucd m /\ a_label m a /\
  register_u8 ucd (Some u) None (Some None) IDN2_NFC_INPUT = Ok (IDN2_NOT_NFC, Some None).
Proof.
  exists [240;145;130;153;240;145;130;186], [0x11099; 0x110BA], [0x1109A], (ace [105;52;48;100]).
  assert (S : Forall scalar [0x1109A]) by (apply Forall_cons; [unfold scalar; lia|apply Forall_nil]).
  assert (R : registrable ucd [0x1109A]) by (apply register_tests; [exact S|vm_compute; reflexivity]).
  split; [exact ucd_nfc_ok|]. split; [exact ucd_qc_sound|]. split; [unfold c_string; in_range_list|]. split; [apply u32_to_u8_iff; reflexivity|].
  split; [reflexivity|]. split; [exact R|]. split; [|vm_compute; reflexivity].
  apply enc_a_label; [exact S|exact (registrable_ascii ucd _ S R)|apply Exists_cons_hd; lia|]. vm_compute. reflexivity.
Qed.
Lemma case_alabel : nfc_ok ucd /\ c_string xn_ue /\ a_label ue4 xn_ue /\ ~ utf8 ue4 [98] /\
  register_u8 ucd None (Some xn_ue) (Some None) 0 = Ok (IDN2_OK, Some (Some xn_ue)) /\
  register_u8 ucd (Some [98]) (Some xn_ue) (Some None) 0 = Ok (IDN2_UALABEL_MISMATCH, Some None) /\
  register_u8 ucd None (Some [120;110;45;45;66;45;53;45;104;111;97]) (Some None) 0 = Ok (IDN2_DISALLOWED, Some None).
Proof.
  split; [exact ucd_nfc_ok|]. split; [exact (ascii_c _ (a_label_ascii _ _ ue_alabel))|]. split; [exact ue_alabel|].
  split; [intros X; pose proof (utf8_fun _ _ _ X ue_utf8); discriminate|]. vm_compute. auto.
Qed.
Lemma case_ascii : ascii_string [97;98;45;45;99;100] /\ ascii_string [45] /\ ascii_string [65;95] /\
  register_u8 ucd (Some [97;98;45;45;99;100]) None (Some None) 0 = Ok (IDN2_OK, Some (Some [97;98;45;45;99;100])) /\
  register_u8 ucd (Some [45]) None (Some None) 0 = Ok (IDN2_OK, Some (Some [45])) /\
  register_u8 ucd (Some [65;95]) None (Some None) 0 = Ok (IDN2_OK, Some (Some [65;95])) /\
  register_u8 ucd (Some (repeat 97 64)) None (Some None) 0 = Ok (IDN2_TOO_BIG_LABEL, Some None).
Proof.
  split; [unfold ascii_string; in_range_list|]. split; [unfold ascii_string; in_range_list|]. split; [unfold ascii_string; in_range_list|]. vm_compute. auto 6.
Qed.
Lemma ex_pair : reg_pair ucd [101;120] [101;120].
Proof.
  exists [101;120]. split; [apply u32_to_u8_iff; reflexivity|]. split; [|right; split; [repeat (apply Forall_cons; [unfold lower_ldh; lia|]); apply Forall_nil|split; [reflexivity|vm_compute; discriminate]]].
  apply register_tests; [repeat (apply Forall_cons; [unfold scalar; lia|]); apply Forall_nil|vm_compute; reflexivity].
Qed.
Lemma case_lookup : Forall2 (reg_pair ucd) [ue8; [101;120]] [xn_ue; [101;120]] /\ dotted [ue8; [101;120]] (ue8 ++ [46;101;120]) /\
  dotted [xn_ue; [101;120]] (xn_ue ++ [46;101;120]) /\ lookup_u8 ucd (ue8 ++ [46;101;120]) 0 = Ok (xn_ue ++ [46;101;120]).
Proof.
  split; [apply Forall2_cons; [exists ue4; split; [exact ue_utf8|split; [exact ue_reg|left; exact ue_alabel]]|apply Forall2_cons; [exact ex_pair|apply Forall2_nil]]|].
  split; [apply dotted_iff; reflexivity|]. split; [apply dotted_iff; reflexivity|]. vm_compute. reflexivity.
Qed.
(** Transitional lookup maps U+00DF away. *)
Lemma transitional_lookup : exists u a r, nfc_ok ucd /\ reg_pair ucd u a /\ lookup_u8 ucd u IDN2_TRANSITIONAL = Ok r /\ r <> a.
Proof.
  exists [195;159], (ace [122;99;97]), [115;115]. assert (S : Forall scalar [223]) by (apply Forall_cons; [unfold scalar; lia|apply Forall_nil]).
  assert (R : registrable ucd [223]) by (apply register_tests; [exact S|vm_compute; reflexivity]).
  split; [exact ucd_nfc_ok|]. split; [|split; [vm_compute; reflexivity|discriminate]].
  exists [223]. split; [apply u32_to_u8_iff; reflexivity|]. split; [exact R|]. left.
  apply enc_a_label; [exact S|exact (registrable_ascii ucd _ S R)|apply Exists_cons_hd; lia|]. vm_compute. reflexivity.
Qed.
