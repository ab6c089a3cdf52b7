(** Packaging for PropScan.v. *)
From Coq Require Import String.
From Verif Require Import Base DataTypes DataTr46 DataNfc DataCsv Gentr46 Tr46Map Tables SpecTables TablesProofs Tr46Valid BaseTop SpecGen GenTop Scan SpecScan ScanProofs
  TextIdna TextProps TextCsv ShipIdna ShipProps ShipCsv Recog.
Local Open Scope list_scope.
Local Open Scope Z_scope.

Lemma tables_of_text : forall t p rows qs T, idna_file 1022 t rows -> props_file 1022 p qs ->
  (gentr46map_text t p = Ok T <-> gentr46map rows qs = Some T).
Proof.
  intros t p rows qs T A B. unfold gentr46map_text. rewrite (scan_idna_file _ _ A), (scan_props_file _ _ B). cbn [bind].
  destruct (gentr46map rows qs); split; congruence.
Qed.
Lemma text_hit : forall t p rows qs T, idna_file 1022 t rows -> props_file 1022 p qs ->
  Forall row_ok rows -> (forall b, In b bounds -> split_at rows b) -> qrows_apart qs ->
  gentr46map_text t p = Ok T -> forall r c, In r rows -> within c r ->
  exists m, get_idna_map_in T c = Ok (m, 0) /\ (forall s, map_is_in T m (tr46_flag s) = Ok true <-> r_status r = s) /\
    get_map_data_in T m = Ok (r_map r) /\ m_n m = zlen (r_map r).
Proof. intros t p rows qs T A B R S Q G. apply (tables_of_text t p rows qs T A B) in G. exact (gen_hit rows qs T R S Q G). Qed.

Lemma unambiguous : forall t r1 r2, idna_file 1022 t r1 -> idna_file 1022 t r2 -> r1 = r2.
Proof. intros t r1 r2 A B. apply scan_idna_file in A, B. congruence. Qed.

Lemma shipped_texts : idna_file 1022 idna_text idna_rows /\ props_file 1022 props_text nfcqc_rows /\ csv_file 1022 csv_text csv_rows.
Proof. split; [exact idna_shipped|]. split; [exact props_shipped|exact csv_shipped]. Qed.
(** The tables of the library, then, are what the generators make of the files. *)
Lemma shipped_idna_table : gendata_text csv_text = Ok idna_table.
Proof. exact (gendata_file _ _ csv_shipped). Qed.
Lemma library_map : forall rows r c, idna_file 1022 idna_text rows -> In r rows -> r_lo r <= c <= r_hi r -> 0 <= c <= 0x10ffff ->
  exists m, get_idna_map c = Ok (m, 0) /\ (forall s, map_is m (tr46_flag s) = Ok true <-> r_status r = s) /\
    get_map_data m = Ok (r_map r) /\ m_n m = zlen (r_map r).
Proof.
  intros rows r c F I W C. rewrite (unambiguous _ _ _ F idna_shipped) in I. destruct (tr46_table_exact c C) as (r' & m & E & H).
  rewrite (idna_row_unique r c I W) in E. assert (r' = r) as -> by congruence. eauto.
Qed.
Lemma gendata_in : forall rows r, In r rows -> p_prop r <> UNASSIGNED -> In (IdnaEntry (p_lo r) (p_hi r) (p_prop r)) (gendata rows).
Proof.
  induction rows as [|x rows IH]; cbn [gendata In]; intros r I N; [exact I|].
  destruct I as [->|I]; [destruct (p_prop r) eqn:P; cbn [In]; try congruence; auto|]. specialize (IH r I N). destruct (p_prop x); cbn [In]; auto.
Qed.
Lemma gendata_from : forall rows lo hi p, In (IdnaEntry lo hi p) (gendata rows) -> In (Prow lo hi p) rows.
Proof.
  induction rows as [|[l h q] rows IH]; cbn [gendata In p_prop p_lo p_hi]; intros lo hi p I; [exact I|].
  destruct q; cbn [In] in I; try (destruct I as [I|I]; [left; congruence|]); right; auto.
Qed.
Lemma library_property : forall rows r c, csv_file 1022 csv_text rows -> In r rows -> p_lo r <= c <= p_hi r -> p_prop r <> UNASSIGNED ->
  property c = Ok (p_prop r).
Proof.
  intros rows r c F I W N. apply gendata_file in F. rewrite shipped_idna_table in F. pose proof (gendata_in rows r I N) as J.
  assert (E : gendata rows = idna_table) by congruence. rewrite E in J. rewrite idna_table_gendata in J. apply gendata_from in J.
  rewrite property_spec. f_equal. exact (csv_row_property _ c J W).
Qed.

Definition sample : list Z := text
"# a comment
00DF          ; deviation              ; 0073 0073     # 1.1  LATIN SMALL LETTER SHARP S

2F8B0..2F8B1;valid;;NV8
	 00ad ; ignored".
Lemma hex1 : forall c d, hexdigit c d -> hexnum [c] d. Proof. exact hex_one. Qed.
Lemma digit_chars : forall c, hexchar c -> exists d, hexdigit c d /\ hex_digit c = Some d.
Proof.
  intros c H. destruct (hexchar_some c H) as (d & E). exists d. split; [|exact E]. revert E. unfold hex_digit, hexdigit, hexchar in *.
  destruct ((48 <=? c) && (c <=? 57)) eqn:A; [intros E; injection E as <-; lia|].
  destruct ((65 <=? c) && (c <=? 70)) eqn:B; [intros E; injection E as <-; lia|].
  destruct ((97 <=? c) && (c <=? 102)) eqn:D; [intros E; injection E as <-; lia|discriminate].
Qed.
Lemma hexnum_rev : forall l v, hex_digits (rev l) 0 = (v, []) -> v < 2 ^ 32 -> l <> [] -> Forall hexchar l -> hexnum (rev l) v.
Proof.
  assert (APP : forall a b w, Forall hexchar a -> exists v, hex_digits a w = (v, []) /\ hex_digits (a ++ b) w = hex_digits b v).
  { induction a as [|c a IH]; intros b w F; cbn [app hex_digits]; [eauto|]. destruct (hexchar_some c (Forall_inv F)) as (d & ->). apply IH. now inversion F. }
  assert (NN : forall a w v, Forall hexchar a -> hex_digits a w = (v, []) -> 0 <= w -> w <= v).
  { induction a as [|c a IH]; intros w v F E W; cbn [hex_digits] in E; [injection E as <-; lia|].
    destruct (digit_chars c (Forall_inv F)) as (d & D & X). rewrite X in E. destruct (hexdigit_char c d D). apply IH in E; [lia|now inversion F|lia]. }
  induction l as [|c l IH]; intros v E V N F; [congruence|]. cbn [rev] in *. pose proof (Forall_inv F) as C. assert (F' : Forall hexchar l) by now inversion F.
  destruct (digit_chars c C) as (d & D & X). destruct l as [|c' l].
  - cbn [rev app hex_digits] in *. rewrite X in E. injection E as <-. replace (16 * 0 + d) with d by lia. now apply hex_one.
  - assert (FR : Forall hexchar (rev (c' :: l))) by (apply Forall_forall; intros x Hx; rewrite <- in_rev in Hx; rewrite Forall_forall in F'; auto).
    destruct (APP (rev (c' :: l)) [c] 0 FR) as (w & E1 & E2). rewrite E in E2. cbn [hex_digits] in E2. rewrite X in E2.
    assert (v = 16 * w + d) as -> by congruence. pose proof (NN _ _ _ FR E1 ltac:(lia)). destruct (hexdigit_char c d D).
    apply hex_more; [|exact D|exact V]. apply IH; auto; [lia|discriminate].
Qed.
Lemma hexlit : forall l v, hex_digits l 0 = (v, []) -> v < 2 ^ 32 -> l <> [] -> forallb (fun c => match hex_digit c with Some _ => true | None => false end) l = true -> hexnum l v.
Proof.
  intros l v E V N F. rewrite <- (rev_involutive l). apply hexnum_rev; [now rewrite rev_involutive|exact V|now intros X; apply (f_equal (@rev Z)) in X; rewrite rev_involutive in X|].
  apply Forall_forall. intros c Hc. rewrite <- in_rev in Hc. rewrite forallb_forall in F. specialize (F c Hc). unfold hexchar.
  destruct (hex_digit c) eqn:D; [|discriminate]. unfold hex_digit in D.
  destruct ((48 <=? c) && (c <=? 57)) eqn:A; [lia|]. destruct ((65 <=? c) && (c <=? 70)) eqn:B; [lia|]. destruct ((97 <=? c) && (c <=? 102)) eqn:C; [lia|discriminate].
Qed.
Ltac hex := apply hexlit; [vm_compute; reflexivity|lia|discriminate|vm_compute; reflexivity].
Ltac clean := split; [vm_compute; repeat (apply Forall_cons; [split; discriminate|]); apply Forall_nil|vm_compute; discriminate].
Ltac blank := vm_compute; repeat (apply Forall_cons; [auto|]); apply Forall_nil.
Ltac pad a b := exists (text a), (text b); split; [blank|split; [blank|vm_compute; reflexivity]].
Definition sample_rows : list row := [Row 0xdf 0xdf Deviation [0x73; 0x73]; Row 0x2f8b0 0x2f8b1 Valid []; Row 0xad 0xad Ignored []].
Lemma sample_line1 : idna_line (text "00DF          ; deviation              ; 0073 0073     # 1.1  LATIN SMALL LETTER SHARP S") [Row 0xdf 0xdf Deviation [0x73; 0x73]].
Proof.
  apply (idna_mapped (text "00DF") (text "00DF          ") (text " deviation              ") (text "0073 0073") (text " 0073 0073     ") (text "# 1.1  LATIN SMALL LETTER SHARP S")).
  - apply range_one. hex.
  - pad ""%string "          "%string.
  - pad " "%string "              "%string.
  - apply (seq_more (text "0073") 0x73 (text " ") (text "0073")); [hex|blank|discriminate|]. apply seq_one. hex.
  - pad " "%string "     "%string.
  - right; left. exists (text " 1.1  LATIN SMALL LETTER SHARP S"). reflexivity.
Qed.
Lemma sample_line2 : idna_line (text "2F8B0..2F8B1;valid;;NV8") [Row 0x2f8b0 0x2f8b1 Valid []].
Proof.
  apply (idna_empty (text "2F8B0..2F8B1") (text "2F8B0..2F8B1") (text "valid") [] (text ";NV8")).
  - apply (range_two dots (text "2F8B0") (text "2F8B1")); hex.
  - pad ""%string ""%string.
  - pad ""%string ""%string.
  - apply Forall_nil.
  - right; right. split; [reflexivity|]. exists (text "NV8"). reflexivity.
Qed.
Definition tab_line : list Z := 9 :: text " 00ad ; ignored".
Lemma sample_line3 : idna_line tab_line [Row 0xad 0xad Ignored []].
Proof.
  apply (idna_unmapped (text "00ad") (9 :: text " 00ad ") (text " ignored") []).
  - apply range_one. hex.
  - exists (9 :: text " "), (text " "). split; [blank|split; [blank|reflexivity]].
  - pad " "%string ""%string.
  - left. reflexivity.
Qed.
Lemma sample_file : idna_file 1022 sample sample_rows.
Proof.
  assert (E : sample = text "# a comment" ++ 10 ::
    text "00DF          ; deviation              ; 0073 0073     # 1.1  LATIN SMALL LETTER SHARP S" ++ 10 ::
    [] ++ 10 :: text "2F8B0..2F8B1;valid;;NV8" ++ 10 :: tab_line) by (vm_compute; reflexivity).
  rewrite E. change sample_rows with ([] ++ [Row 0xdf 0xdf Deviation [0x73; 0x73]] ++ [] ++ [Row 0x2f8b0 0x2f8b1 Valid []] ++ [Row 0xad 0xad Ignored []]).
  apply file_line; [clean| |apply file_line; [clean| |apply file_line; [clean| |apply file_line; [clean| |apply file_last; [discriminate|clean|]]]]].
  - apply no_line. right. exists [], (text " a comment"). split; [apply Forall_nil|reflexivity].
  - apply a_line. exact sample_line1.
  - apply no_line. left. apply Forall_nil.
  - apply a_line. exact sample_line2.
  - apply a_line. exact sample_line3.
Qed.
Definition props_sample : list Z := text
"00A0          ; NFKD_QC; N # <noBreak> SPACE
0340..0341    ; NFC_QC; N
0653..0655 ; NFC_QC ; M # Mn
".
Lemma props_sample_file : props_file 1022 props_sample [Qrow 0x340 0x341 QcNo; Qrow 0x653 0x655 QcMaybe].
Proof.
  assert (E : props_sample = text "00A0          ; NFKD_QC; N # <noBreak> SPACE" ++ 10 :: text "0340..0341    ; NFC_QC; N" ++ 10 ::
    text "0653..0655 ; NFC_QC ; M # Mn" ++ 10 :: []) by (vm_compute; reflexivity).
  rewrite E. change [Qrow 0x340 0x341 QcNo; Qrow 0x653 0x655 QcMaybe] with ([] ++ [Qrow 0x340 0x341 QcNo] ++ [Qrow 0x653 0x655 QcMaybe] ++ []).
  apply file_line; [clean| |apply file_line; [clean| |apply file_line; [clean| |apply file_end]]]; apply a_line.
  - apply (props_other (text "00A0") (text "00A0          ") (text "NFKD_QC") (text " NFKD_QC") (text "; N # <noBreak> SPACE") 0xa0 0xa0).
    + apply range_one. hex.
    + pad ""%string "          "%string.
    + apply wordb. vm_compute. reflexivity.
    + vm_compute. discriminate.
    + pad " "%string ""%string.
    + right; right. split; [reflexivity|]. exists (text " N # <noBreak> SPACE"). reflexivity.
  - apply (props_qc (text "0340..0341") (text "0340..0341    ") (text " NFC_QC") (text " N") [] 0x340 0x341 QcNo).
    + apply (range_two dots (text "0340") (text "0341")); hex.
    + pad ""%string "    "%string.
    + pad " "%string ""%string.
    + pad " "%string ""%string.
    + left. reflexivity.
  - apply (props_qc (text "0653..0655") (text "0653..0655 ") (text " NFC_QC ") (text " M ") (text "# Mn") 0x653 0x655 QcMaybe).
    + apply (range_two dots (text "0653") (text "0655")); hex.
    + pad ""%string " "%string.
    + pad " "%string " "%string.
    + pad " "%string " "%string.
    + right; left. exists (text " Mn"). reflexivity.
Qed.
Definition csv_sample : list Z := text
"Codepoint,Property,Description
0000-002C,DISALLOWED,NULL..COMMA
002D,PVALID,HYPHEN-MINUS
0378-0379,UNASSIGNED,<reserved>..<reserved>
200C,CONTEXTJ,ZERO WIDTH NON-JOINER".
Definition csv_rows_sample : list prow := [Prow 0 0x2c DISALLOWED; Prow 0x2d 0x2d PVALID; Prow 0x378 0x379 UNASSIGNED; Prow 0x200c 0x200c CONTEXTJ].
Lemma csv_sample_file : csv_file 1022 csv_sample csv_rows_sample.
Proof.
  exists (text "Codepoint,Property,Description"), (text
"0000-002C,DISALLOWED,NULL..COMMA
002D,PVALID,HYPHEN-MINUS
0378-0379,UNASSIGNED,<reserved>..<reserved>
200C,CONTEXTJ,ZERO WIDTH NON-JOINER").
  split; [clean|]. split; [exists (text "Description"); vm_compute; reflexivity|]. split; [vm_compute; reflexivity|].
  match goal with |- file_of _ _ ?t _ => assert (E : t = text "0000-002C,DISALLOWED,NULL..COMMA" ++ 10 :: text "002D,PVALID,HYPHEN-MINUS" ++ 10 ::
    text "0378-0379,UNASSIGNED,<reserved>..<reserved>" ++ 10 :: text "200C,CONTEXTJ,ZERO WIDTH NON-JOINER") by (vm_compute; reflexivity) end.
  rewrite E. change csv_rows_sample with ([Prow 0 0x2c DISALLOWED] ++ [Prow 0x2d 0x2d PVALID] ++ [Prow 0x378 0x379 UNASSIGNED] ++ [Prow 0x200c 0x200c CONTEXTJ]).
  apply file_line; [clean| |apply file_line; [clean| |apply file_line; [clean| |apply file_last; [discriminate|clean|]]]].
  - apply (csv_row (text "0000-002C") 0 0x2c DISALLOWED (text "NULL..COMMA")). apply (range_two [45] (text "0000") (text "002C")); hex.
  - apply (csv_row (text "002D") 0x2d 0x2d PVALID (text "HYPHEN-MINUS")). apply range_one. hex.
  - apply (csv_row (text "0378-0379") 0x378 0x379 UNASSIGNED (text "<reserved>..<reserved>")). apply (range_two [45] (text "0378") (text "0379")); hex.
  - apply (csv_row (text "200C") 0x200c 0x200c CONTEXTJ (text "ZERO WIDTH NON-JOINER")). apply range_one. hex.
Qed.
Lemma sample_case : idna_file 1022 sample sample_rows /\ props_file 1022 props_sample [Qrow 0x340 0x341 QcNo; Qrow 0x653 0x655 QcMaybe] /\
  csv_file 1022 csv_sample csv_rows_sample /\
  gendata_text csv_sample = Ok [IdnaEntry 0 0x2c DISALLOWED; IdnaEntry 0x2d 0x2d PVALID; IdnaEntry 0x200c 0x200c CONTEXTJ].
Proof. split; [exact sample_file|]. split; [exact props_sample_file|]. split; [exact csv_sample_file|]. vm_compute. reflexivity. Qed.

(** A comment that reaches past the buffer. *)
Definition long_line : list Z := text "0041;valid#" ++ repeat 32 (Z.to_nat 1012) ++ text "0042;valid".
Lemma long_lines : exists t rows rows', idna_file 2000 t rows /\ scan_file scan_idna t = Ok rows' /\ rows' <> rows /\
  rows = [Row 0x41 0x41 Valid []] /\ rows' = [Row 0x41 0x41 Valid []; Row 0x42 0x42 Valid []].
Proof.
  exists long_line, [Row 0x41 0x41 Valid []], [Row 0x41 0x41 Valid []; Row 0x42 0x42 Valid []].
  split; [|split; [vm_compute; reflexivity|split; [discriminate|split; reflexivity]]].
  apply file_last; [discriminate| |].
  - split; [|vm_compute; discriminate]. apply Forall_forall. intros c Hc. assert (H : forallb (fun c => negb (c =? 0) && negb (c =? 10)) long_line = true) by (vm_compute; reflexivity).
    rewrite forallb_forall in H. specialize (H c Hc). lia.
  - apply a_line. unfold long_line. apply (idna_unmapped (text "0041") (text "0041") (text "valid") (35 :: repeat 32 (Z.to_nat 1012) ++ text "0042;valid")).
    + apply range_one. hex.
    + pad ""%string ""%string.
    + pad ""%string ""%string.
    + right; left. eexists. reflexivity.
Qed.

(** A range whose end is no number. *)
Definition torn_line : list Z := text "0041..zz;valid".
Lemma hexnum_hexchars : forall l v, hexnum l v -> Forall (fun c => 48 <= c <= 57 \/ 65 <= c <= 70 \/ 97 <= c <= 102) l.
Proof.
  assert (D : forall c d, hexdigit c d -> 48 <= c <= 57 \/ 65 <= c <= 70 \/ 97 <= c <= 102) by (unfold hexdigit; intros; lia).
  intros l v H. induction H; [constructor; eauto|]. apply Forall_app. split; [exact IHhexnum|constructor; eauto].
Qed.
Lemma first_field : forall l f lo hi, range_text dots l lo hi -> padded l f -> Forall (fun c => c <= 102 /\ c <> 59 /\ c <> 35) f.
Proof.
  intros l f lo hi R (a & b & A & B & ->).
  assert (BL : forall x, blanks x -> Forall (fun c => c <= 102 /\ c <> 59 /\ c <> 35) x) by (intros x X; eapply Forall_impl; [|exact X]; cbn; intros; lia).
  assert (HX : forall x v, hexnum x v -> Forall (fun c => c <= 102 /\ c <> 59 /\ c <> 35) x) by (intros x v X; apply hexnum_hexchars in X; eapply Forall_impl; [|exact X]; cbn; intros; lia).
  apply Forall_app. split; [auto|]. apply Forall_app. split; [|auto]. destruct R as [l c H|p q lo hi H1 H2]; [eauto|].
  apply Forall_app. split; [eauto|]. apply Forall_app. split; [|eauto]. unfold dots. repeat (apply Forall_cons; [lia|]). apply Forall_nil.
Qed.
Lemma torn_not_line : forall r, ~ idna_line torn_line r.
Proof.
  assert (K : forall f1 x l lo hi, torn_line = f1 ++ 59 :: x -> range_text dots l lo hi -> padded l f1 -> False).
  { intros f1 x l lo hi E R P. pose proof (first_field l f1 lo hi R P) as F.
    assert (C : forall f, Forall (fun c => c <= 102 /\ c <> 59 /\ c <> 35) f -> Recog.cut 59 (f ++ 59 :: x) = (f, Some x)).
    { clear. induction f as [|c f IH]; intros F; [reflexivity|]. cbn [app Recog.cut]. pose proof (Forall_inv F) as A. cbn in A.
      destruct (Z.eqb_spec c 59); [lia|]. rewrite IH; [reflexivity|now inversion F]. }
    specialize (C f1 F). rewrite <- E in C. vm_compute in C. injection C as C _. rewrite <- C in F. rewrite Forall_forall in F.
    specialize (F 122 ltac:(cbn; auto 10)). lia. }
  intros r H. remember torn_line as t eqn:E. destruct H; eapply K; eauto.
Qed.
Lemma torn_not_file : forall max r, ~ idna_file max torn_line r.
Proof.
  intros max r H. unfold idna_file in H. remember torn_line as t eqn:E. destruct H as [|l r N L H|l r t rs L H G].
  - discriminate.
  - subst l. remember torn_line as t eqn:E. destruct H as [l r H|l H]; subst l; [exact (torn_not_line _ H)|].
    destruct H as [H|(b & x & B & H)]; [unfold torn_line in H; vm_compute in H; apply Forall_inv in H; lia|].
    assert (I : In 35 torn_line) by (rewrite H; apply in_or_app; right; now left). vm_compute in I. lia.
  - assert (I : In 10 torn_line) by (rewrite <- E; apply in_or_app; right; now left). vm_compute in I. lia.
Qed.
Lemma torn_silent : exists t rows, (forall max r, ~ idna_file max t r) /\ scan_file scan_idna t = Ok rows /\ rows = [Row 0x41 0x41 Valid []].
Proof. exists torn_line, [Row 0x41 0x41 Valid []]. split; [exact torn_not_file|]. split; vm_compute; reflexivity. Qed.
