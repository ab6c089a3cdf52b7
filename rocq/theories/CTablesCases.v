(** C94 in the words of the data files, what CLabel.v takes the tables to be, and cases. *)
From Coq Require Import String.
From Verif Require Import Base PunyBase DataTypes Uenv Ucd Tables TablesProofs SpecTables SpecGen Gentr46 Tr46Tables Tr46Map Tr46Valid BaseTop CLang CLabel CTables SpecCPuny SpecCTables CSearch CTablesTop.
Local Open Scope string_scope.
Local Open Scope list_scope.
Local Open Scope Z_scope.

Lemma c_property_spec : forall bs c, c11_bsearch bs -> 0 <= c < two32 -> returns_property bs c (match csv_property c with PVALID => 0 | CONTEXTJ => 1 | CONTEXTO => 2 | DISALLOWED => 3 | UNASSIGNED => 4 end).
Proof. intros bs c B C. exact (text_property bs B c C). Qed.
Lemma c_class_spec : forall bs p c, c11_bsearch bs -> 0 <= c < two32 -> exists v, returns_class bs p c v /\ (v = 0 \/ v = 1) /\ (v = 1 <-> csv_property c = p).
Proof.
  intros bs p c B C. eexists. split; [exact (text_class bs B p c C)|]. destruct (csv_property c), p; cbn [prop_eqb]; (split; [auto|]); split; congruence.
Qed.
Lemma data_length : forall c r m, idna_row c = Some r -> get_idna_map c = Ok (m, 0) -> m_n m = zlen (r_map r) -> Z.to_nat (m_n m) = length (r_map r).
Proof. intros c r m _ _ E. rewrite E. unfold zlen. apply Nat2Z.id. Qed.
Lemma c_map_spec : forall bs c v, c11_bsearch bs -> 0 <= c <= 0x10ffff -> exists r m, idna_row c = Some r /\ returns_map bs c v 0 m /\
  (forall s, exists b, returns_flag bs m (tr46_flag s) b /\ (b = 0 \/ b = 1) /\ (b = 1 <-> r_status r = s)) /\
  (forall dst, zlen (r_map r) <= zlen dst -> returns_data bs m dst (zlen (r_map r)) (map Some (r_map r) ++ skipn (length (r_map r)) dst)).
Proof.
  intros bs c v B C. destruct (tr46_table_exact c C) as (r & m & R & G & FL & D & N). destruct (text_map bs B c m 0 v ltac:(unfold two32; lia) G) as (X & B1 & B2 & _). exists r, (members_map m).
  split; [exact R|]. split; [exact X|]. split.
  - intros s. destruct (idna_map_spec c C) as (r' & m' & R' & G' & F' & _). assert (m' = m) as -> by congruence. assert (exists b, Tr46Map.map_is m (tr46_flag s) = Ok b) as (b & E).
    { with_strategy transparent [Tr46Map.map_is] unfold Tr46Map.map_is, map_is_in. rewrite F'. cbn [bind]. eauto. }
    exists (if b then 1 else 0). split; [apply text_flag; [exact E|unfold two32; destruct s; cbn; lia]|]. specialize (FL s). rewrite E in FL. split; [destruct b; auto|]. rewrite <- FL. destruct b; split; congruence.
  - intros dst L. rewrite <- (data_length c r m R G N), <- N. apply text_data; auto; try lia.
Qed.
Lemma c_map_outside : forall bs c v, c11_bsearch bs -> 0x10ffff < c < two32 -> exists m, m = Members (Some 0) (Some 0) (Some 0) (Some 0) (Some 0) /\ returns_map bs c v (-1) m /\ (forall s, exists b, returns_flag bs m (tr46_flag s) b /\ (b = 1 <-> s = Std3Valid)).
Proof.
  intros bs c v B C. eexists. split; [reflexivity|]. split; [exact (proj1 (text_map bs B c (IdnaMap 0 0 0 0 0) (-1) v ltac:(lia) (idna_map_outside c (proj1 C))))|].
  intros s. exists (if (Z.land 64 (tr46_flag s) =? tr46_flag s) then 1 else 0). split; [|destruct s; cbn; split; congruence].
  apply (text_flag bs (IdnaMap 0 0 0 0 0)); [|unfold two32; destruct s; cbn; lia]. with_strategy transparent [Tr46Map.map_is] unfold Tr46Map.map_is, map_is_in. cbn [m_idx]. rewrite flags0. reflexivity.
Qed.
Lemma c_nfcqc_spec : forall bs ch c, c11_bsearch bs -> exists i, returns_nfcqc bs ch c i /\
  match nfc_qc c with None => i = -1 | Some k => exists q, 0 <= i /\ nth_error (t_nfcqc tr46_data) (Z.to_nat i) = Some q /\ nq1 q <= c <= nq2 q /\ nq_check q = match k with QcNo => 1 | QcMaybe => 2 end end.
Proof.
  intros bs ch c B. destruct (text_nfcqc bs B ch c) as (i & X & Y). exists i. split; [exact X|]. destruct (nfcqc_values c) as (o & G & H). rewrite G in Y. destruct (nfc_qc c) as [k|].
  - destruct H as (q & -> & H). destruct Y as (Y1 & Y2 & Y3). exists q. repeat (split; [first [exact Y1|exact Y2|exact Y3]|]). destruct k; exact H.
  - subst o. exact Y.
Qed.

(** The functions that the label tests call. *)
Definition calls_lib (U : uenv) (f : string) (args : list (cty * Z)) (v : Z) : Prop := exists t g, label_lib U f = Some (t, g) /\ g args [] = Val v.
Lemma lib_classes : forall U bs c v, c11_bsearch bs -> 0 <= c < two32 ->
  (calls_lib U "_idn2_disallowed_p" [(U32, c)] v -> returns_class bs DISALLOWED c v) /\ (calls_lib U "_idn2_contextj_p" [(U32, c)] v -> returns_class bs CONTEXTJ c v) /\
  (calls_lib U "_idn2_contexto_p" [(U32, c)] v -> returns_class bs CONTEXTO c v) /\ (calls_lib U "_idn2_unassigned_p" [(U32, c)] v -> returns_class bs UNASSIGNED c v).
Proof.
  intros U bs c v B C.
  assert (K : forall p f, (exists t g, label_lib U f = Some (t, g) /\ g [(U32, c)] [] = Val v) -> label_lib U f = Some (I32, one (fun c => of_bool (let* q := property c in Ok (prop_eqb q p)))) -> returns_class bs p c v).
  { intros p f (t & g & L & V) E. rewrite E in L. assert (g = one (fun c => of_bool (let* q := property c in Ok (prop_eqb q p)))) as -> by congruence. cbn [one] in V. rewrite property_spec in V. cbn [bind of_bool] in V. assert (v = if prop_eqb (csv_property c) p then 1 else 0) as -> by congruence. exact (text_class bs B p c C). }
  split; [|split; [|split]]; intros H; (eapply K; [exact H|reflexivity]).
Qed.
Lemma lib_maps : forall U bs c i, c11_bsearch bs -> 0 <= c < two32 -> calls_lib U "get_idna_map" [(U32, c)] i -> forall v, exists rc m, returns_map bs c v rc m /\ v_idx m = Some i /\
  forall flags b, 0 <= flags < two32 -> calls_lib U "map_is" [(U32, i); (I32, flags)] b -> returns_flag bs m flags b.
Proof.
  intros U bs c i B C (t & g & L & V) v. assert (E : label_lib U "get_idna_map" = Some (U32, one (fun c => match get_idna_map c with Ok (m, _) => Val (m_idx m) | _ => UB end))) by reflexivity.
  rewrite E in L. assert (g = one (fun c => match get_idna_map c with Ok (m, _) => Val (m_idx m) | _ => UB end)) as -> by congruence. cbn [one] in V.
  destruct (get_idna_map c) as [[m rc]| | |] eqn:G; try discriminate V. assert (i = m_idx m) as -> by congruence. exists rc, (members_map m). split; [exact (proj1 (text_map bs B c m rc v C G))|]. split; [reflexivity|].
  intros flags b F (t' & g' & L' & V'). assert (E' : label_lib U "map_is" = Some (I32, fun args m => match args, m with [(_, i); (_, f)], [] => of_bool (Tr46Map.map_is (IdnaMap 0 0 0 0 i) f) | _, _ => UB end)) by reflexivity.
  rewrite E' in L'. apply (f_equal (fun o => match o with Some (_, g) => g | None => g' end)) in L'. cbv beta iota in L'. rewrite <- L' in V'. cbv beta iota in V'.
  destruct (Tr46Map.map_is (IdnaMap 0 0 0 0 (m_idx m)) flags) as [z| | |] eqn:M; try discriminate V'. cbn [of_bool] in V'. assert (b = if z then 1 else 0) as -> by congruence.
  apply (text_flag bs m flags z); [|exact F]. rewrite <- M. with_strategy transparent [Tr46Map.map_is] unfold Tr46Map.map_is, map_is_in. reflexivity.
Qed.
Lemma lib_nfcqc : forall U bs ch c k, c11_bsearch bs -> calls_lib U "get_nfcqc_map" [(U32, c)] k -> exists i, returns_nfcqc bs ch c i /\
  (i = -1 /\ k = -1 \/ exists q, 0 <= i /\ nth_error (t_nfcqc tr46_data) (Z.to_nat i) = Some q /\ nq_check q = k).
Proof.
  intros U bs ch c k B (t & g & L & V). assert (E : label_lib U "get_nfcqc_map" = Some (I32, one (fun c => match get_nfcqc_map c with Ok (Some q) => Val (nq_check q) | Ok None => Val (-1) | _ => UB end))) by reflexivity.
  rewrite E in L. assert (g = one (fun c => match get_nfcqc_map c with Ok (Some q) => Val (nq_check q) | Ok None => Val (-1) | _ => UB end)) as -> by congruence. cbn [one] in V.
  destruct (text_nfcqc bs B ch c) as (i & X & Y). exists i. split; [exact X|]. destruct (get_nfcqc_map c) as [[q|]| | |]; try discriminate V.
  - right. exists q. destruct Y as (Y1 & Y2 & _). split; [exact Y1|]. split; [exact Y2|]. congruence.
  - left. split; [exact Y|]. congruence.
Qed.
Lemma conforming : c11_bsearch glibc_bsearch /\ c11_bsearch linear_bsearch. Proof. split; [exact glibc_c11|exact linear_c11]. Qed.
Lemma case_property : returns_property glibc_bsearch 0x61 0 /\ returns_property linear_bsearch 0x200d 1 /\ returns_property linear_bsearch 0xb7 2 /\ returns_property glibc_bsearch 0x41 3 /\ returns_property glibc_bsearch 0x378 4 /\ returns_property glibc_bsearch 0xffffffff 4.
Proof.
  destruct conforming as (A & B).
  split; [exact (c_property_spec _ 0x61 A ltac:(unfold two32; lia))|]. split; [exact (c_property_spec _ 0x200d B ltac:(unfold two32; lia))|]. split; [exact (c_property_spec _ 0xb7 B ltac:(unfold two32; lia))|].
  split; [exact (c_property_spec _ 0x41 A ltac:(unfold two32; lia))|]. split; [exact (c_property_spec _ 0x378 A ltac:(unfold two32; lia))|exact (c_property_spec _ 0xffffffff A ltac:(unfold two32; lia))].
Qed.

Lemma case_class : returns_class glibc_bsearch DISALLOWED 0x41 1 /\ returns_class glibc_bsearch DISALLOWED 0x61 0 /\ returns_class linear_bsearch CONTEXTJ 0x200c 1 /\ returns_class linear_bsearch UNASSIGNED 0x10ffff 0 /\ returns_class linear_bsearch UNASSIGNED 0x110000 1.
Proof.
  destruct conforming as (A & B).
  split; [exact (text_class _ A DISALLOWED 0x41 ltac:(unfold two32; lia))|]. split; [exact (text_class _ A DISALLOWED 0x61 ltac:(unfold two32; lia))|]. split; [exact (text_class _ B CONTEXTJ 0x200c ltac:(unfold two32; lia))|].
  split; [exact (text_class _ B UNASSIGNED 0x10ffff ltac:(unfold two32; lia))|exact (text_class _ B UNASSIGNED 0x110000 ltac:(unfold two32; lia))].
Qed.
Definition garbage : members_of := Members None None None None None.
Lemma row_case : forall bs c lo hi st mp, c11_bsearch bs -> 0 <= c <= 0x10ffff -> idna_row c = Some (Row lo hi st mp) ->
  exists m, returns_map bs c garbage 0 m /\ returns_flag bs m (tr46_flag st) 1 /\ (forall dst, zlen mp <= zlen dst -> returns_data bs m dst (zlen mp) (map Some mp ++ skipn (length mp) dst)).
Proof.
  intros bs c lo hi st mp B C R. destruct (c_map_spec bs c garbage B C) as (r & m & R' & X & F & D). rewrite R in R'. assert (r = Row lo hi st mp) as -> by congruence. exists m. split; [exact X|]. split; [|exact D].
  destruct (F st) as (b & Y & _ & I). cbn [r_status] in I. rewrite <- (proj2 I eq_refl). exact Y.
Qed.
Lemma case_map :
  (exists m, returns_map glibc_bsearch 0xdf garbage 0 m /\ returns_flag glibc_bsearch m 8 1 /\ returns_data glibc_bsearch m [None; None; Some 7] 2 [Some 0x73; Some 0x73; Some 7]) /\
  (exists m, returns_map linear_bsearch 0x4b garbage 0 m /\ returns_flag linear_bsearch m 2 1 /\ returns_data linear_bsearch m [None] 1 [Some 0x6b]) /\
  (exists m, returns_map linear_bsearch 0x1f130 garbage 0 m /\ returns_flag linear_bsearch m 2 1 /\ returns_data linear_bsearch m [None; None] 1 [Some 0x61; None]).
Proof.
  destruct conforming as (A & B).
  assert (R1 : idna_row 0xdf = Some (Row 0xdf 0xdf Deviation [0x73; 0x73])) by (vm_compute; reflexivity).
  assert (R2 : idna_row 0x4b = Some (Row 0x4b 0x4b Mapped [0x6b])) by (vm_compute; reflexivity).
  assert (R3 : idna_row 0x1f130 = Some (Row 0x1f130 0x1f130 Mapped [0x61])) by (vm_compute; reflexivity).
  destruct (row_case _ 0xdf _ _ _ _ A ltac:(lia) R1) as (m1 & X1 & Y1 & D1). destruct (row_case _ 0x4b _ _ _ _ B ltac:(lia) R2) as (m2 & X2 & Y2 & D2). destruct (row_case _ 0x1f130 _ _ _ _ B ltac:(lia) R3) as (m3 & X3 & Y3 & D3).
  split; [exists m1; split; [exact X1|]; split; [exact Y1|]; exact (D1 [None; None; Some 7] ltac:(vm_compute; discriminate))|].
  split; [exists m2; split; [exact X2|]; split; [exact Y2|]; exact (D2 [None] ltac:(vm_compute; discriminate))|exists m3; split; [exact X3|]; split; [exact Y3|]; exact (D3 [None; None] ltac:(vm_compute; discriminate))].
Qed.
Lemma case_nfcqc : (exists i q, returns_nfcqc glibc_bsearch I8 0x340 i /\ nth_error (t_nfcqc tr46_data) (Z.to_nat i) = Some q /\ nq_check q = 1) /\
  (exists i q, returns_nfcqc glibc_bsearch U8 0x301 i /\ nth_error (t_nfcqc tr46_data) (Z.to_nat i) = Some q /\ nq_check q = 2) /\ returns_nfcqc linear_bsearch U8 0x61 (-1).
Proof.
  destruct conforming as (A & B).
  assert (Q1 : nfc_qc 0x340 = Some QcNo) by (vm_compute; reflexivity). assert (Q2 : nfc_qc 0x301 = Some QcMaybe) by (vm_compute; reflexivity). assert (Q3 : nfc_qc 0x61 = None) by (vm_compute; reflexivity).
  destruct (c_nfcqc_spec glibc_bsearch I8 0x340 A) as (i & X & Y). rewrite Q1 in Y. destruct Y as (q & _ & Y1 & _ & Y2).
  destruct (c_nfcqc_spec glibc_bsearch U8 0x301 A) as (i' & X' & Y'). rewrite Q2 in Y'. destruct Y' as (q' & _ & Y1' & _ & Y2').
  destruct (c_nfcqc_spec linear_bsearch U8 0x61 B) as (j & X3 & Y3). rewrite Q3 in Y3. subst j.
  split; [exists i, q; auto|]. split; [exists i', q'; auto|exact X3].
Qed.
Lemma case_lib : calls_lib ucd "_idn2_disallowed_p" [(U32, 0x41)] 1 /\ (exists i, calls_lib ucd "get_idna_map" [(U32, 0xdf)] i /\ calls_lib ucd "map_is" [(U32, i); (I32, 8)] 1) /\ calls_lib ucd "get_nfcqc_map" [(U32, 0x340)] 1.
Proof.
  split; [do 2 eexists; split; [reflexivity|vm_compute; reflexivity]|]. split; [|do 2 eexists; split; [reflexivity|vm_compute; reflexivity]].
  destruct (idna_map_spec 0xdf ltac:(lia)) as (r & m & R & G & F & _). exists (m_idx m). assert (R1 : idna_row 0xdf = Some (Row 0xdf 0xdf Deviation [0x73; 0x73])) by (vm_compute; reflexivity).
  assert (r = Row 0xdf 0xdf Deviation [0x73; 0x73]) as -> by congruence. split; (do 2 eexists; split; [reflexivity|]).
  - cbn [one]. rewrite G. reflexivity.
  - cbv beta iota. with_strategy transparent [Tr46Map.map_is] unfold Tr46Map.map_is, map_is_in. cbn [m_idx]. rewrite F. reflexivity.
Qed.
