(** Two variants of the Unicode 14 database. *)
From Verif Require Import Base PunyBase Uenv DataTypes DataTr46 DataUcd Tables SpecUtf8 SpecTables SpecNfc SpecLookup SpecToAscii Idna Lookup Api Register MapProofs Tr46Facts BaseTop StableProofs Ucd UcdProofs
  SpecAgree AgreeProofs AgreeTop AcceptExamples.

Local Transparent status_of idna_tree.
Definition listed (t : tree) (c : Z) : bool := match tfind t c with Some r => negb (status_eqb (r_status r) Disallowed) | None => false end.
Lemma tables_listed : (let t := idna_tree in forallb (fun x => forallb (listed t) (snd x)) ucd_decomp && forallb (fun x => listed t (snd x)) ucd_comp) = true.
Proof. vm_cast_no_check (eq_refl true). Qed.
Lemma row_known : forall c r, idna_row c = Some r -> r_status r <> Disallowed -> known c.
Proof. intros c r E N. left. unfold status_of. now rewrite E. Qed.
Lemma listed_known : forall c, listed idna_tree c = true -> known c.
Proof.
  intros c H. unfold listed in H. destruct (tfind idna_tree c) as [r|] eqn:E; [|discriminate]. apply tree_row in E. apply (row_known c r E). intros X. rewrite X in H. discriminate.
Qed.
Local Opaque status_of idna_tree.
Lemma range_known : forall a r c, idna_row a = Some r -> r_lo r <= c <= r_hi r -> r_status r <> Disallowed -> known c.
Proof. intros a r c E R N. apply find_in in E. destruct E as (I & _). exact (row_known c r (idna_row_unique r c I R) N). Qed.
Lemma hangul_known : forall c, 44032 <= c <= 55203 -> known c.
Proof. intros c R. apply (range_known 44032 (Row 44032 55203 Valid [])); [vm_compute; reflexivity|exact R|discriminate]. Qed.
Lemma jamo1_known : forall c, 4352 <= c <= 4441 -> known c.
Proof. intros c R. apply (range_known 4352 (Row 4352 4441 Valid [])); [vm_compute; reflexivity|exact R|discriminate]. Qed.
Lemma jamo2_known : forall c, 4449 <= c <= 4514 -> known c.
Proof. intros c R. apply (range_known 4449 (Row 4449 4514 Valid [])); [vm_compute; reflexivity|exact R|discriminate]. Qed.
Lemma jamo3_known : forall c, 4520 <= c <= 4601 -> known c.
Proof. intros c R. apply (range_known 4520 (Row 4520 4601 Valid [])); [vm_compute; reflexivity|exact R|discriminate]. Qed.
Lemma comp_known : forall a b v, comp a b = Some v -> known v.
Proof.
  intros a b v. unfold comp. destruct ((4352 <=? a) && (a <=? 4370) && (4449 <=? b) && (b <=? 4469)) eqn:E1.
  - intros H. apply some_inj in H. subst v. rewrite !andb_true_iff, !Z.leb_le in E1. apply hangul_known. lia.
  - destruct (hangul a && ((a - 44032) mod 28 =? 0) && (4520 <=? b) && (b <=? 4546)) eqn:E2.
    + intros H. apply some_inj in H. subst v. rewrite !andb_true_iff, !Z.leb_le, Z.eqb_eq in E2. destruct E2 as (((E2 & M) & L1) & L2). unfold hangul in E2. rewrite andb_true_iff, !Z.leb_le in E2. apply hangul_known.
      assert (a <> 55203 - 0 /\ a + (b - 4519) <= 55203); [|lia]. pose proof (Z.div_mod (a - 44032) 28 ltac:(lia)) as D. rewrite M in D. assert ((a - 44032) / 28 <= 398) by (apply Z.div_le_upper_bound; lia). lia.
    + intros H. apply assoc2_in in H. pose proof tables_listed as T. apply andb_true_iff in T. destruct T as (_ & T). apply listed_known. exact (proj1 (forallb_forall _ _) T _ H).
Qed.
Lemma decomp_known : forall c, known c -> Forall known (decomp1 c).
Proof.
  intros c K. destruct (decomp_cases c) as [E|[(_ & E)|(_ & I)]].
  - pose proof (hangul_parts c E) as (_ & A & B & T & _). unfold decomp1. rewrite E. constructor; [apply jamo1_known; lia|]. constructor; [apply jamo2_known; lia|].
    destruct ((c - 44032) mod 28 =? 0) eqn:Z; constructor; [|constructor]. apply Z.eqb_neq in Z. apply jamo3_known. lia.
  - rewrite E. constructor; [exact K|constructor].
  - pose proof tables_listed as T. apply andb_true_iff in T. destruct T as (T & _). pose proof (proj1 (forallb_forall _ _) T _ I) as F. cbn [snd] in F. apply Forall_forall. intros x Ix. apply listed_known. exact (proj1 (forallb_forall _ _) F x Ix).
Qed.
Lemma nfc_known : forall l, Forall known l -> Forall known (nfc l).
Proof.
  intros l F. unfold nfc. apply recompose_all; [exact comp_known|]. apply Forall_forall. intros x I. rewrite order_in in I. apply in_flat_map in I. destruct I as (c & I1 & I2).
  rewrite Forall_forall in F. pose proof (decomp_known c (F c I1)) as D. rewrite Forall_forall in D. auto.
Qed.

(** A later version, in which U+0378 is a combining mark, read from the right, and
    canonically equivalent to U+00E9. *)
Definition later1 (c : Z) : Z := if c =? 0x378 then 0xE9 else c.
Definition later : uenv := {|
  ue_ccc := ue_ccc ucd;
  ue_bidi := fun c => if c =? 0x378 then UC_BIDI_R else ue_bidi ucd c;
  ue_join := ue_join ucd;
  ue_mark := fun c => if c =? 0x378 then true else ue_mark ucd c;
  ue_script := ue_script ucd;
  ue_nfc := fun l => ue_nfc ucd (map later1 l)
|}.
(** An earlier version, in which U+0B55 is not a mark. *)
Definition earlier : uenv := {|
  ue_ccc := ue_ccc ucd; ue_bidi := ue_bidi ucd; ue_join := ue_join ucd;
  ue_mark := fun c => if c =? 0xB55 then false else ue_mark ucd c;
  ue_script := ue_script ucd; ue_nfc := ue_nfc ucd
|}.
Lemma unknown : ~ known 0x378.
Proof. intros [H|H]; apply H; vm_compute; reflexivity. Qed.
Lemma known_not : forall c, known c -> (c =? 0x378) = false.
Proof. intros c K. destruct (c =? 0x378) eqn:E; [|reflexivity]. apply Z.eqb_eq in E. subst c. destruct (unknown K). Qed.
Lemma later_map : forall l, Forall known l -> map later1 l = l.
Proof. induction 1 as [|c l K F IH]; [reflexivity|]. cbn [map]. unfold later1 at 1. rewrite (known_not c K), IH. reflexivity. Qed.
Lemma later_agrees : agree known ucd later.
Proof.
  constructor; cbn [later ue_ccc ue_bidi ue_join ue_mark ue_script ue_nfc]; try (intros; reflexivity).
  - intros c K. now rewrite (known_not c K).
  - intros c K. now rewrite (known_not c K).
  - intros l F. now rewrite (later_map l F).
  - intros l p F E. cbn [ucd ue_nfc] in E. injection E as <-. now apply nfc_known.
Qed.
Lemma later_low : forall c x, x < 128 -> later1 c = x -> c = x.
Proof. intros c x L E. unfold later1 in E. destruct (c =? 0x378); lia. Qed.
Lemma later_same : forall x, x < 128 -> later1 x = x.
Proof. intros x L. unfold later1. destruct (x =? 0x378) eqn:E; [apply Z.eqb_eq in E; lia|reflexivity]. Qed.
Lemma later_nfc_ok : nfc_ok later.
Proof.
  pose proof ucd_nfc_ok as K. constructor; cbn [later ue_nfc].
  - intros s a b S. rewrite map_app. cbn [map]. rewrite (later_same s) by (unfold separator in S; lia). now apply (nfc_separator _ K).
  - intros s l p S E I. apply (nfc_no_separator _ K s _ p S E) in I. apply in_map_iff in I. destruct I as (c & E1 & I). apply later_low in E1; [now subst c|unfold separator in S; lia].
  - intros l F. assert (map later1 l = l) as ->; [|now apply (nfc_ascii _ K)]. induction F as [|c l C F IH]; [reflexivity|]. cbn [map]. rewrite later_same, IH by lia. reflexivity.
  - intros l p F E. apply (nfc_scalar _ K _ p) in E; [exact E|]. apply Forall_forall. intros x I. apply in_map_iff in I. destruct I as (c & <- & I). rewrite Forall_forall in F. specialize (F c I).
    unfold later1. destruct (c =? 0x378); [unfold scalar; lia|exact F].
  - intros l p E. apply (nfc_length _ K) in E. unfold zlen in *. now rewrite map_length in E.
Qed.
Lemma earlier_nfc_ok : nfc_ok earlier.
Proof. pose proof ucd_nfc_ok as K. constructor; [exact (nfc_separator _ K)|exact (nfc_no_separator _ K)|exact (nfc_ascii _ K)|exact (nfc_scalar _ K)|exact (nfc_length _ K)]. Qed.

Lemma error_differs : exists U V src, nfc_ok U /\ nfc_ok V /\ agree known U V /\ c_string src /\ lookup_u8 U src IDN2_NO_TR46 = Fail IDN2_UNASSIGNED /\ lookup_u8 V src IDN2_NO_TR46 = Fail IDN2_NOT_NFC.
Proof.
  exists ucd, later, [0xCD; 0xB8]. split; [exact ucd_nfc_ok|]. split; [exact later_nfc_ok|]. split; [exact later_agrees|]. split; [repeat constructor; lia|]. split; vm_compute; reflexivity.
Qed.
Lemma nfc_differs : exists U V src r, nfc_ok U /\ nfc_ok V /\ agree known U V /\ c_string src /\
  lookup_u8 U src (IDN2_NO_TR46 + IDN2_NFC_INPUT) = Fail IDN2_UNASSIGNED /\ lookup_u8 V src (IDN2_NO_TR46 + IDN2_NFC_INPUT) = Ok r /\
  register_u8 U (Some src) None (Some None) IDN2_NFC_INPUT = Ok (IDN2_UNASSIGNED, Some None) /\ register_u8 V (Some src) None (Some None) IDN2_NFC_INPUT = Ok (IDN2_OK, Some (Some r)).
Proof.
  exists ucd, later, [0xCD; 0xB8; 0xCD; 0x81], [120; 110; 45; 45; 57; 99; 97; 54; 56; 104]. split; [exact ucd_nfc_ok|]. split; [exact later_nfc_ok|]. split; [exact later_agrees|]. split; [repeat constructor; lia|].
  split; [vm_compute; reflexivity|]. split; [vm_compute; reflexivity|]. split; vm_compute; reflexivity.
Qed.
Lemma older_differs : exists V src r, nfc_ok V /\ (forall c, c <> 0xB55 -> ue_mark V c = ue_mark ucd c) /\
  ue_ccc V = ue_ccc ucd /\ ue_bidi V = ue_bidi ucd /\ ue_join V = ue_join ucd /\ ue_script V = ue_script ucd /\ ue_nfc V = ue_nfc ucd /\ known 0xB55 /\ c_string src /\
  lookup_u8 ucd src IDN2_TRANSITIONAL = Fail IDN2_LEADING_COMBINING /\ lookup_u8 V src IDN2_TRANSITIONAL = Ok r.
Proof.
  exists earlier, [0xE0; 0xAD; 0x95], [120; 110; 45; 45; 105; 106; 99]. split; [exact earlier_nfc_ok|]. split.
  { intros c N. cbn [earlier ue_mark]. destruct (c =? 0xB55) eqn:E; [apply Z.eqb_eq in E; contradiction|reflexivity]. }
  split; [reflexivity|]. split; [reflexivity|]. split; [reflexivity|]. split; [reflexivity|]. split; [reflexivity|]. split; [left; vm_compute; discriminate|]. split; [repeat constructor; lia|]. split; vm_compute; reflexivity.
Qed.
Lemma only_case : only known ucd 0 [0xE9; 46; 120; 110; 45; 45; 57; 99; 97].
Proof.
  split.
  - assert (mapped_name 0 [0xE9; 46; 120; 110; 45; 45; 57; 99; 97] = [0xE9; 46; 120; 110; 45; 45; 57; 99; 97]) as -> by (vm_compute; reflexivity).
    apply Forall_cons; [apply listed_known; vm_compute; reflexivity|]. repeat (apply Forall_cons; [apply ascii_known; lia|]). constructor.
  - intros n ls e p _ N D I Dp. assert (n = [0xE9; 46; 120; 110; 45; 45; 57; 99; 97]) as -> by (vm_compute in N; congruence). apply dotted_iff in D. vm_compute in D. subst ls.
    destruct I as [I|[I|[]]]; [discriminate|]. injection I as <-. apply ToAsciiProofs.decodes_iff in Dp; [|vm_compute; reflexivity]. vm_compute in Dp. injection Dp as <-.
    apply Forall_forall. intros c Ic. apply listed_known. destruct Ic as [<-|[]]. vm_compute. reflexivity.
Qed.
