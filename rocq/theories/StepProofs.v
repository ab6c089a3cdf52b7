(** The counted functions compute the results of the model, and count what the
    functions of Cost.v say. *)
From Coq Require Import String.
From Verif Require Import Base Uenv DataTypes Bsearch Tables Gentr46 Tr46Tables Tr46Map Utf8 Bidi Context Idna Puny Lookup Api Register.
From Verif Require Import Cost Step.
Local Open Scope Z_scope.

Lemma seq_eq : forall A B (t : Z) (m : out A) (k : A -> run B), seq (t, m) k = (t + after m (fun a => fst (k a)), bind m (fun a => snd (k a))).
Proof. intros. unfold seq, spend. destruct m; cbn [fst snd after bind]; f_equal; lia. Qed.
Lemma pure_seq : forall A B (m : out A) (k : A -> run B), seq (pure m) k = (after m (fun a => fst (k a)), bind m (fun a => snd (k a))).
Proof. intros. unfold pure. rewrite seq_eq. reflexivity. Qed.
Lemma after_ext : forall A (m : out A) T T', (forall a, T a = T' a) -> after m T = after m T'.
Proof. intros A [a| | |] T T' H; cbn [after]; auto. Qed.
Lemma bind_ext : forall A B (m : out A) (k k' : A -> out B), (forall a, k a = k' a) -> bind m k = bind m k'.
Proof. intros A B [a| | |] k k' H; cbn [bind]; auto. Qed.
Lemma same : forall A (t t' : Z) (m m' : out A), t = t' -> m = m' -> (t, m) = (t', m').
Proof. intros; subst; reflexivity. Qed.

(** Follow the control flow. *)
Ltac norm := unfold tick, spend; cbn [fst snd after bind]; rewrite ?seq_eq, ?pure_seq; unfold pure; cbn [fst snd after bind].
Ltac ext := first [apply after_ext | apply bind_ext | apply f_equal; apply after_ext | apply f_equal; apply f_equal; apply after_ext].

Lemma existsb_run : forall A (f : A -> bool) l, c_existsb f l = (T_existsb f l, Ok (existsb f l)).
Proof. intros A f. induction l as [|c r IH]; cbn [c_existsb T_existsb existsb]; [reflexivity|]. destruct (f c); cbn [orb]; [reflexivity|]. rewrite IH. norm. reflexivity. Qed.
Lemma forallb_run : forall A (f : A -> bool) l, c_forallb f l = (T_forallb f l, Ok (forallb f l)).
Proof.
  intros A f. unfold T_forallb. induction l as [|c r IH]; cbn [c_forallb T_existsb forallb]; [reflexivity|].
  destruct (f c); cbn [negb andb]; [|reflexivity]. rewrite IH. norm. reflexivity.
Qed.
Lemma list_eqb_run : forall a b, c_list_eqb a b = (T_list_eqb a b, Ok (list_eqb a b)).
Proof.
  induction a as [|x a IH]; destruct b as [|y b]; cbn [c_list_eqb T_list_eqb list_eqb]; try reflexivity.
  destruct (x =? y); cbn [andb]; [rewrite IH|]; norm; reflexivity.
Qed.
Lemma casecmp_run : forall a b, c_casecmp_eq a b = (T_casecmp_eq a b, Ok (casecmp_eq a b)).
Proof.
  induction a as [|x a IH]; destruct b as [|y b]; cbn [c_casecmp_eq T_casecmp_eq casecmp_eq]; try reflexivity.
  destruct (c_tolower x =? c_tolower y); cbn [andb]; [rewrite IH|]; norm; reflexivity.
Qed.
Lemma u8_run : forall s, c_u8_to_u32 s = (zlen s, conv (u8_to_u32 s) IDN2_ENCODING_ERROR).
Proof. intros. unfold c_u8_to_u32. norm. f_equal. lia. Qed.
Lemma u32_run : forall s, c_u32_to_u8 s = (zlen s, conv (u32_to_u8 s) IDN2_ENCODING_ERROR).
Proof. intros. unfold c_u32_to_u8. norm. f_equal. lia. Qed.

(** * Tables *)
Lemma bsearch_loop_run : forall f cmp lo hi, c_bsearch_loop f cmp lo hi = (T_bsearch_loop f cmp lo hi, bsearch_loop f cmp lo hi).
Proof.
  induction f as [|f IH]; intros cmp lo hi; cbn [c_bsearch_loop T_bsearch_loop bsearch_loop]; [reflexivity|].
  destruct (lo <? hi); [|reflexivity]. cbv zeta. norm. destruct (cmp _) as [r| | |]; norm; try reflexivity. rewrite !IH.
  destruct (r <? 0); [reflexivity|]. destruct (0 <? r); reflexivity.
Qed.
Lemma bsearch_run : forall cmp n, c_bsearch cmp n = (T_bsearch cmp n, bsearch cmp n).
Proof. intros. apply bsearch_loop_run. Qed.
Lemma property_run : forall c, c_property c = (T_property c, property c).
Proof.
  intros c. unfold c_property, T_property, property, property_in. rewrite bsearch_run, seq_eq. apply same.
  - destruct (bsearch _ _) as [[i|]| | |]; norm; try lia. destruct (elem _ _); norm; lia.
  - apply bind_ext. intros [i|]; [|reflexivity]. norm. reflexivity.
Qed.
Lemma prop_run : forall (q : prop -> bool) c, seq (c_property c) (fun p => pure (Ok (q p))) = (T_property c, let* p := property c in Ok (q p)).
Proof. intros q c. rewrite property_run, seq_eq. apply same; [destruct (property c); norm; lia|reflexivity]. Qed.
Lemma disallowed_run : forall c, c_disallowed_p c = (T_property c, disallowed_p c).
Proof. intros c. exact (prop_run (fun p => prop_eqb p DISALLOWED) c). Qed.
Lemma contextj_run : forall c, c_contextj_p c = (T_property c, contextj_p c).
Proof. intros c. exact (prop_run (fun p => prop_eqb p CONTEXTJ) c). Qed.
Lemma contexto_run : forall c, c_contexto_p c = (T_property c, contexto_p c).
Proof. intros c. exact (prop_run (fun p => prop_eqb p CONTEXTO) c). Qed.
Lemma unassigned_run : forall c, c_unassigned_p c = (T_property c, unassigned_p c).
Proof. intros c. exact (prop_run (fun p => prop_eqb p UNASSIGNED) c). Qed.
Lemma search_map_run : forall c tbl size, c_search_map c tbl size = (T_search_map c tbl size, search_map c tbl size).
Proof.
  intros. unfold c_search_map, T_search_map, search_map. rewrite bsearch_run, seq_eq. apply same.
  - destruct (bsearch _ _) as [[i|]| | |]; norm; try lia. destruct (fill_map _ _); norm; lia.
  - apply bind_ext. intros [i|]; [|reflexivity]. norm. reflexivity.
Qed.
Lemma get_idna_map_run : forall c, c_get_idna_map c = (T_get_idna_map c, get_idna_map c).
Proof.
  intros c. unfold c_get_idna_map, T_get_idna_map, get_idna_map, get_idna_map_in. rewrite !search_map_run.
  destruct (c <=? 255); [reflexivity|]. destruct (c <=? 65535); [reflexivity|]. destruct (c <=? 16777215); reflexivity.
Qed.
Lemma get_nfcqc_run : forall c, c_get_nfcqc_map c = (T_get_nfcqc c, get_nfcqc_map c).
Proof.
  intros c. unfold c_get_nfcqc_map, T_get_nfcqc, get_nfcqc_map, get_nfcqc_in. rewrite bsearch_run, seq_eq. apply same.
  - destruct (bsearch _ _) as [[i|]| | |]; norm; try lia. destruct (elem _ _); norm; lia.
  - apply bind_ext. intros [i|]; [|reflexivity]. norm. reflexivity.
Qed.
Lemma stream_cp_run : forall s cp, c_stream_cp s cp = (T_stream_cp s, stream_cp s cp).
Proof.
  induction s as [|b s IH]; intros cp; cbn [c_stream_cp T_stream_cp stream_cp]; [reflexivity|]. cbv zeta.
  destruct (_ =? 0); [reflexivity|]. rewrite IH. norm. reflexivity.
Qed.
Lemma stream_cps_run : forall n s, c_stream_cps n s = (T_stream_cps n s, stream_cps n s).
Proof.
  induction n as [|n IH]; intros s; cbn [c_stream_cps T_stream_cps stream_cps]; [reflexivity|]. rewrite stream_cp_run. norm. apply same.
  - destruct (stream_cp s 0) as [p| | |]; norm; try lia. rewrite IH. norm. destruct (stream_cps n (snd p)); norm; lia.
  - apply bind_ext. intros [cp r]. rewrite IH. norm. reflexivity.
Qed.
Lemma get_map_data_run : forall m, c_get_map_data m = (T_get_map_data m, get_map_data m).
Proof. intros m. unfold c_get_map_data, T_get_map_data, get_map_data, get_map_data_in. destruct (_ <? _); [reflexivity|]. apply stream_cps_run. Qed.

(** * Punycode *)
Lemma adapt_loop_run : forall f k d, c_adapt_loop f k d = (T_adapt_loop f d, adapt_loop f k d).
Proof.
  induction f as [|f IH]; intros k d; cbn [c_adapt_loop T_adapt_loop adapt_loop]; [reflexivity|].
  destruct (455 <? d); [rewrite IH; norm; reflexivity|]. destruct (_ =? 0); reflexivity.
Qed.
Lemma adapt_run : forall d n ft, c_adapt d n ft = (T_adapt d n ft, adapt d n ft).
Proof. intros. unfold c_adapt, T_adapt, adapt. cbv zeta. destruct (n =? 0); [reflexivity|]. apply adapt_loop_run. Qed.
Lemma enc_varint_run : forall f cap mo o bias q k, c_enc_varint f cap mo o bias q k = (T_enc_varint f cap mo o bias q k, enc_varint f cap mo o bias q k).
Proof.
  induction f as [|f IH]; intros cap mo o bias q k; cbn [c_enc_varint T_enc_varint enc_varint]; [reflexivity|]. cbv zeta.
  destruct (mo <=? zlen o); [reflexivity|]. destruct (q <? _); [reflexivity|]. destruct (_ =? 0); [reflexivity|].
  norm. apply same; [f_equal; apply after_ext|apply bind_ext]; intros o'; rewrite IH; reflexivity.
Qed.
Lemma enc_scan_run : forall cap mo b n l st, c_enc_scan cap mo b n l st = (T_enc_scan cap mo b n l st, enc_scan cap mo b n l st).
Proof.
  intros cap mo b n. induction l as [|c l IH]; intros st; cbn [c_enc_scan T_enc_scan enc_scan]; [reflexivity|]. cbv zeta. norm.
  apply same; [f_equal; apply after_ext|apply bind_ext]; intros delta; (destruct (c =? n); [|rewrite IH; reflexivity]); rewrite enc_varint_run; norm;
    [f_equal; apply after_ext|apply bind_ext]; intros o; rewrite adapt_run; norm; [f_equal; apply after_ext|apply bind_ext]; intros bias; rewrite IH; reflexivity.
Qed.
Lemma enc_main_run : forall f cap mo b l n st, c_enc_main f cap mo b l n st = (T_enc_main f cap mo b l n st, enc_main f cap mo b l n st).
Proof.
  induction f as [|f IH]; intros cap mo b l n st; cbn [c_enc_main T_enc_main enc_main]; (destruct (e_h st <? zlen l); [|reflexivity]); [reflexivity|]. cbv zeta.
  unfold c_enc_next. norm. destruct (_ =? 0); norm; [f_equal; lia|]. destruct (_ <? _); norm; [f_equal; lia|].
  rewrite enc_scan_run. norm. apply same.
  - match goal with |- context [after ?m ?T] => rewrite (after_ext _ m T (fun st' => T_enc_main f cap mo b l (u32 (enc_next n l + 1)) (mkest (u32 (e_delta st' + 1)) (e_out st') (e_bias st') (e_h st')))) end; [lia|].
    intros st'. rewrite IH. reflexivity.
  - apply bind_ext. intros st'. rewrite IH. reflexivity.
Qed.
Lemma enc_basic_run : forall cap mo l o, c_enc_basic cap mo l o = (T_enc_basic cap mo l o, enc_basic cap mo l o).
Proof.
  intros cap mo. induction l as [|c l IH]; intros o; cbn [c_enc_basic T_enc_basic enc_basic]; [reflexivity|].
  destruct (c <? 128).
  - destruct (_ <? 2); [reflexivity|]. norm. apply same; [f_equal; apply after_ext|apply bind_ext]; intros o'; rewrite IH; reflexivity.
  - destruct (_ || _); [reflexivity|]. rewrite IH. norm. reflexivity.
Qed.
Lemma encode_run : forall l mo cap, c_puny_encode l mo cap = (T_puny_encode l mo cap, puny_encode l mo cap).
Proof.
  intros. unfold c_puny_encode, T_puny_encode, puny_encode. destruct (maxint <? zlen l); [reflexivity|]. rewrite enc_basic_run. norm.
  apply same; [f_equal; apply after_ext|apply bind_ext]; intros o; cbv zeta; norm; [apply after_ext|apply bind_ext]; intros o'; rewrite enc_main_run; reflexivity.
Qed.
Lemma dec_check_run : forall l j b, c_dec_check l j b = (T_dec_check l, dec_check l j b).
Proof.
  unfold T_dec_check, T_forallb. induction l as [|c l IH]; intros j b; cbn [c_dec_check T_existsb dec_check]; [reflexivity|].
  destruct (dec_basic c); cbn [negb]; [rewrite IH; norm; reflexivity|reflexivity].
Qed.
Lemma dec_copy_run : forall cap l o, c_dec_copy cap l o = (T_dec_copy cap l o, dec_copy cap l o).
Proof.
  intros cap. induction l as [|c l IH]; intros o; cbn [c_dec_copy T_dec_copy dec_copy]; [reflexivity|]. norm.
  apply same; [f_equal; apply after_ext|apply bind_ext]; intros o'; rewrite IH; reflexivity.
Qed.
Lemma dec_varint_run : forall inp bias i w k, c_dec_varint inp bias i w k = (T_dec_varint inp bias i w k, dec_varint inp bias i w k).
Proof.
  induction inp as [|c r IH]; intros bias i w k; cbn [c_dec_varint T_dec_varint dec_varint]; [reflexivity|]. cbv zeta.
  destruct (36 <=? _); [reflexivity|]. destruct (w =? 0); [reflexivity|]. destruct (_ <? decode_digit c); [reflexivity|].
  destruct (decode_digit c <? _); [reflexivity|]. destruct (_ =? 0); [reflexivity|]. destruct (_ <? w); [reflexivity|].
  rewrite IH. norm. reflexivity.
Qed.
Lemma dec_main_run : forall f cap mo inp o n i bias, c_dec_main f cap mo inp o n i bias = (T_dec_main f cap mo inp o n i bias, dec_main f cap mo inp o n i bias).
Proof.
  induction f as [|f IH]; intros cap mo inp o n i bias; cbn [c_dec_main T_dec_main dec_main]; destruct inp as [|c r]; try reflexivity. cbv zeta.
  rewrite dec_varint_run. norm. apply same.
  - rewrite <- Z.add_assoc. f_equal. f_equal. apply after_ext. intros [i1 rest]. rewrite adapt_run. norm. f_equal. apply after_ext. intros bias'.
    destruct (_ =? 0); [reflexivity|]. destruct (_ <? _); [reflexivity|]. destruct (_ || _); [reflexivity|]. destruct (_ <=? _); [reflexivity|].
    unfold c_insert_at, T_insert_at. norm. rewrite Z.add_0_r. f_equal. apply after_ext. intros o'. rewrite IH. reflexivity.
  - apply bind_ext. intros [i1 rest]. rewrite adapt_run. norm. apply bind_ext. intros bias'.
    destruct (_ =? 0); [reflexivity|]. destruct (_ <? _); [reflexivity|]. destruct (_ || _); [reflexivity|]. destruct (_ <=? _); [reflexivity|].
    unfold c_insert_at. norm. apply bind_ext. intros o'. rewrite IH. reflexivity.
Qed.
Lemma decode_run : forall inp ol cap, c_puny_decode inp ol cap = (T_puny_decode inp ol cap, puny_decode inp ol cap).
Proof.
  intros. unfold c_puny_decode, T_puny_decode, puny_decode. destruct inp as [|c0 r0]; [reflexivity|]. rewrite dec_check_run. norm.
  apply same; [f_equal; apply after_ext|apply bind_ext]; intros b; cbv zeta; norm; [apply after_ext|apply bind_ext]; intros c;
    (destruct (c =? delimiter); [|rewrite dec_main_run; reflexivity]); (destruct (_ || _); [reflexivity|]); (destruct (_ <=? b); [reflexivity|]);
    rewrite dec_copy_run; norm; [f_equal; apply after_ext|apply bind_ext]; intros o; rewrite dec_main_run; reflexivity.
Qed.

Section Run.
  Variable U : uenv.

  Lemma zwnj_back_run : forall label t, c_zwnj_back U label t = (T_zwnj_back U label t, zwnj_back U label t).
  Proof.
    intros label. induction t as [|t IH]; cbn [c_zwnj_back T_zwnj_back zwnj_back]; norm;
      (apply same; [f_equal; apply after_ext|apply bind_ext]; intros cp; (destruct (_ || _); [reflexivity|]); try reflexivity;
       (destruct (joining_eqb _ _); [rewrite IH|]; reflexivity)).
  Qed.
  Lemma zwnj_fwd_run : forall l, c_zwnj_fwd U l = (T_zwnj_fwd U l, zwnj_fwd U l).
  Proof.
    induction l as [|c r IH]; [reflexivity|]. cbn [c_zwnj_fwd T_zwnj_fwd zwnj_fwd]. cbv zeta. destruct (_ || _); [reflexivity|].
    destruct r as [|d r]; [reflexivity|]. destruct (joining_eqb _ _); [|reflexivity]. rewrite IH. norm. reflexivity.
  Qed.
  Lemma contextj_rule_run : forall label pos, c_contextj_rule U label pos = (T_contextj_rule U label pos, contextj_rule U label pos).
  Proof.
    intros. unfold c_contextj_rule, T_contextj_rule, contextj_rule. cbv zeta. destruct (zlen label =? 0); [reflexivity|]. norm.
    apply same; [apply after_ext|apply bind_ext]; intros cp; rewrite contextj_run; norm; [f_equal; apply after_ext|apply bind_ext]; intros j;
      (destruct (negb j); [reflexivity|]); (destruct (cp =? 8204);
      [norm; ext; intros v; (destruct v; [reflexivity|]); (destruct (_ || _); [reflexivity|]);
       rewrite zwnj_back_run; norm; ext; intros _; rewrite zwnj_fwd_run; reflexivity|]);
      (destruct (cp =? 8205); [|reflexivity]); norm.
    - destruct (virama_before U label pos) as [[|]| | |]; reflexivity.
    - apply bind_ext. intros [|]; reflexivity.
  Qed.
  Lemma contexto_rule_run : forall label pos, c_contexto_rule U label pos = (T_contexto_rule U label pos, contexto_rule U label pos).
  Proof.
    intros. unfold c_contexto_rule, T_contexto_rule, contexto_rule. cbv zeta. norm.
    apply same; [apply after_ext|apply bind_ext]; intros cp; rewrite contexto_run; norm; [f_equal; apply after_ext|apply bind_ext]; intros o.
    - destruct (negb o); [reflexivity|]. destruct (cp =? 183); cbn [orb].
      { destruct (_ <? 3); [reflexivity|]. destruct (_ || _); [reflexivity|]. norm. destruct (rd label (pos - 1)); norm; try reflexivity. destruct (rd label (pos + 1)); reflexivity. }
      destruct (cp =? 885); cbn [orb].
      { destruct (_ =? _); [reflexivity|]. norm. destruct (rd label (pos + 1)); reflexivity. }
      destruct ((cp =? 1523) || (cp =? 1524)).
      { destruct (_ =? _); [reflexivity|]. norm. destruct (rd label (pos - 1)); reflexivity. }
      destruct (is_arabic_indic cp); [rewrite existsb_run; norm; lia|]. destruct (is_ext_arabic_indic cp); [rewrite existsb_run; norm; lia|].
      destruct (cp =? 12539); [rewrite existsb_run; norm; lia|reflexivity].
    - destruct (negb o); [reflexivity|]. destruct (cp =? 183).
      { destruct (_ <? 3); [reflexivity|]. destruct (_ || _); [reflexivity|]. norm. apply bind_ext. intros b. norm. reflexivity. }
      destruct (cp =? 885).
      { destruct (_ =? _); [reflexivity|]. norm. reflexivity. }
      destruct ((cp =? 1523) || (cp =? 1524)).
      { destruct (_ =? _); [reflexivity|]. norm. reflexivity. }
      destruct (is_arabic_indic cp); [rewrite existsb_run; norm; reflexivity|]. destruct (is_ext_arabic_indic cp); [rewrite existsb_run; norm; reflexivity|].
      destruct (cp =? 12539); [rewrite existsb_run; norm; reflexivity|reflexivity].
  Qed.
  Lemma is_bidi_run : forall l, c_is_bidi U l = (T_existsb (is_rtl U) l, Ok (is_bidi U l)).
  Proof.
    induction l as [|c r IH]; cbn [c_is_bidi T_existsb is_bidi]; [reflexivity|]. cbv zeta. unfold is_rtl at 1. cbv zeta.
    destruct (_ || _); [reflexivity|]. rewrite IH. norm. reflexivity.
  Qed.
  Lemma bidi_ltr_run : forall l e, c_bidi_ltr U l e = (T_existsb (stops U ltr_classes) l, bidi_ltr U l e).
  Proof.
    induction l as [|c r IH]; intros e; cbn [c_bidi_ltr T_existsb bidi_ltr]; [reflexivity|]. cbv zeta. rewrite !IH. unfold stops, ltr_classes at 1. cbn [existsb].
    destruct (ue_bidi U c); cbn [bidi_eqb negb andb orb]; norm; reflexivity.
  Qed.
  Lemma bidi_rtl_run : forall l e, c_bidi_rtl U l e = (T_existsb (stops U rtl_classes) l, bidi_rtl U l e).
  Proof.
    induction l as [|c r IH]; intros e; cbn [c_bidi_rtl T_existsb bidi_rtl]; [reflexivity|]. cbv zeta. rewrite !IH. unfold stops, rtl_classes at 1. cbn [existsb].
    destruct (ue_bidi U c); cbn [bidi_eqb negb andb orb]; norm; reflexivity.
  Qed.
  Lemma bidi_run : forall l, c_bidi U l = (T_bidi U l, bidi U l).
  Proof.
    intros l. unfold c_bidi, T_bidi, bidi. rewrite is_bidi_run. norm. destruct (negb (is_bidi U l)); [reflexivity|].
    destruct l as [|c r]; [reflexivity|]. rewrite bidi_ltr_run, bidi_rtl_run. destruct (ue_bidi U c); reflexivity.
  Qed.
  Lemma isNFC_run : forall l skip la res, c_isNFC_loop U l skip la res = (T_isNFC_loop U l skip la, isNFC_loop U l skip la res).
  Proof.
    induction l as [|ch r IH]; intros skip la res; cbn [c_isNFC_loop T_isNFC_loop isNFC_loop]; [reflexivity|].
    destruct skip; [apply IH|]. cbv zeta. destruct (_ && _); [reflexivity|]. rewrite get_nfcqc_run. norm.
    apply same; [f_equal; f_equal; apply after_ext|apply bind_ext]; intros [q|]; rewrite ?IH; try reflexivity; (destruct (negb _); reflexivity).
  Qed.
  Lemma u8_nfc_run : forall s nfc, c_u8_to_u32_nfc U s nfc = (T_u8_to_u32_nfc U s nfc, u8_to_u32_nfc U s nfc).
  Proof.
    intros. unfold c_u8_to_u32_nfc, T_u8_to_u32_nfc, u8_to_u32_nfc. rewrite u8_run. norm.
    apply same; [f_equal; apply after_ext|apply bind_ext]; intros p; (destruct nfc; [|reflexivity]); rewrite isNFC_run; norm; [|reflexivity].
    destruct (isNFC_loop U p false 0 1); norm; lia.
  Qed.
  Lemma ascii_run : forall s, c_ascii_p s = (T_ascii_p s, Ok (ascii_p s)).
  Proof. intros. apply forallb_run. Qed.
  Lemma each_run : forall (f : Z -> out unit) (T : Z -> Z) (c : Z -> run unit), (forall x, c x = (T x, f x)) ->
    forall l, c_each c l = (T_each f T l, each f l).
  Proof.
    intros f T c H. induction l as [|x r IH]; cbn [c_each T_each each]; [reflexivity|]. rewrite H, IH. norm. apply same; [lia|reflexivity].
  Qed.
  Lemma each_pos_run : forall (f : Z -> out unit) (T : Z -> Z) (c : Z -> run unit), (forall x, c x = (T x, f x)) ->
    forall n i, c_each_pos c n i = (T_each_pos f T n i, each_pos f n i).
  Proof.
    intros f T c H. induction n as [|n IH]; intros i; cbn [c_each_pos T_each_pos each_pos]; [reflexivity|]. rewrite H, IH. norm. apply same; [lia|reflexivity].
  Qed.
  Lemma test_nfc_run : forall l, c_test_nfc U l = (after (conv (ue_nfc U l) IDN2_NFC) (fun p => T_list_eqb l p), test_nfc U l).
  Proof.
    intros. unfold c_test_nfc, test_nfc. norm. apply same; [apply after_ext|apply bind_ext]; intros p; rewrite list_eqb_run; norm; [lia|reflexivity].
  Qed.
  Lemma disallowed1_run : forall what c, c_test_disallowed1 what c = (T_disallowed1 what c, test_disallowed1 what c).
  Proof.
    intros. unfold c_test_disallowed1, T_disallowed1, test_disallowed1. rewrite disallowed_run. norm.
    apply same; [f_equal; apply after_ext|apply bind_ext]; intros d; (destruct d; cbn [andb]; [|reflexivity]); (destruct (_ && _); [|reflexivity]);
      rewrite get_idna_map_run; norm.
    - destruct (get_idna_map c) as [m| | |]; norm; try lia. destruct (std3_exempt _); norm; lia.
    - apply bind_ext. intros [m k]. norm. reflexivity.
  Qed.
  Ltac prop1 r := intros c; match goal with |- ?f c = _ => unfold f end; rewrite r; norm; apply same; [match goal with |- _ + after ?m _ = _ => destruct m; norm; lia end|reflexivity].
  Lemma contextj1_run : forall c, c_test_contextj1 c = (T_property c, test_contextj1 c).
  Proof. prop1 contextj_run. Qed.
  Lemma contexto1_run : forall c, c_test_contexto1 c = (T_property c, test_contexto1 c).
  Proof. prop1 contexto_run. Qed.
  Lemma contexto_with1_run : forall c, c_test_contexto_with1 c = (T_property c, test_contexto_with1 c).
  Proof. prop1 contexto_run. Qed.
  Lemma unassigned1_run : forall c, c_test_unassigned1 c = (T_property c, test_unassigned1 c).
  Proof. prop1 unassigned_run. Qed.
  Lemma status1_run : forall what c, c_test_status1 what c = (T_get_idna_map c, test_status1 what c).
  Proof.
    intros. unfold c_test_status1, test_status1. cbv zeta. rewrite get_idna_map_run. norm. apply same.
    - destruct (get_idna_map c) as [m| | |]; norm; try lia. destruct (map_is _ FLG_VALID) as [v| | |]; norm; try lia.
      do 2 (match goal with |- context [after ?x _] => destruct x as [[|]| | |]; norm; try lia end).
    - apply bind_ext. intros [m k]. norm. apply bind_ext. intros v. norm. apply bind_ext. intros [|]; [reflexivity|]. norm. apply bind_ext. intros [|]; reflexivity.
  Qed.
  Lemma when_run : forall b T m, c_when b (T, m) = (T_when b T, when b m).
  Proof. intros [|] T m; reflexivity. Qed.
  Lemma when_pure : forall b m, c_when b (pure m) = pure (when b m).
  Proof. intros [|] m; reflexivity. Qed.
  Lemma label_test_run : forall what l, c_label_test U what l = (T_label_test U what l, label_test U what l).
  Proof.
    intros what l. unfold c_label_test, T_label_test, label_test.
    rewrite test_nfc_run, (each_run _ _ _ (disallowed1_run what)), (each_run _ _ _ contextj1_run), (each_run _ _ _ contexto1_run),
      (each_run _ _ _ contexto_with1_run), (each_run _ _ _ unassigned1_run), (each_run _ _ _ (status1_run what)),
      (each_pos_run _ _ _ (contextj_rule_run l)), (each_pos_run _ _ _ (contexto_rule_run l)), bidi_run,
      (each_run test_dot1 (fun _ => 0) c_test_dot1 (fun _ => eq_refl)), !when_pure.
    rewrite (seq_eq _ _ (T_each test_dot1 (fun _ => 0) l)), !when_run. norm.
    apply same.
    - do 12 (first [f_equal; apply after_ext; intros _; norm | apply after_ext; intros _; norm]).
    - do 12 (apply bind_ext; intros _; norm). reflexivity.
  Qed.

  Lemma label_tail_run : forall src org dl flags, c_label_tail U src org dl flags = (T_label_tail U src org dl flags, label_tail U src org dl flags).
  Proof.
    intros. unfold c_label_tail, T_label_tail, label_tail. rewrite u8_nfc_run. norm.
    apply same; [f_equal; apply after_ext|apply bind_ext]; intros p; rewrite label_test_run, when_run; norm; [f_equal; apply after_ext|apply bind_ext]; intros _;
      (destruct (dl <? 4); [reflexivity|]); rewrite encode_run; norm; [f_equal; apply after_ext|apply bind_ext]; intros enc; cbv zeta;
      (destruct org as [org|]; [rewrite casecmp_run; norm; lia || reflexivity|]); (destruct (negb _); [|reflexivity]); rewrite decode_run; norm.
    - f_equal. destruct (puny_decode _ _ _) as [l32| | |]; cbn [after fst]; try reflexivity. rewrite list_eqb_run. norm. lia.
    - destruct (puny_decode _ _ _) as [l32| | |]; try reflexivity. rewrite list_eqb_run. norm. reflexivity.
  Qed.
  Lemma label_run : forall src dl flags, c_label U src dl flags = (T_label U src dl flags, label U src dl flags).
  Proof.
    intros. unfold c_label, T_label, label. rewrite ascii_run. norm. destruct (ascii_p src).
    - destruct (_ && _).
      + rewrite decode_run. norm. apply same; [f_equal; f_equal; apply after_ext|apply bind_ext]; intros l32; rewrite u32_run; norm;
          [f_equal; apply after_ext|apply bind_ext]; intros s'; rewrite label_tail_run; reflexivity.
      + destruct (_ <? _); [reflexivity|]. destruct (_ <? _); [reflexivity|]. norm. apply same; [lia|reflexivity].
    - rewrite label_tail_run. reflexivity.
  Qed.
  Lemma tr46_len1_run : forall flags c, c_tr46_len1 flags c = (T_get_idna_map c, tr46_len1 flags c).
  Proof.
    intros. unfold c_tr46_len1, tr46_len1. rewrite get_idna_map_run. norm. apply same; [destruct (get_idna_map c); norm; lia|].
    apply bind_ext. intros [m k]. reflexivity.
  Qed.
  Lemma tr46_len_run : forall flags l n, c_tr46_len flags l n = (T_tr46_len flags l, tr46_len flags l n).
  Proof.
    intros flags. induction l as [|c r IH]; intros n; cbn [c_tr46_len T_tr46_len tr46_len]; [reflexivity|]. rewrite tr46_len1_run. norm. apply same.
    - rewrite <- Z.add_assoc. f_equal. f_equal. apply after_ext. intros x. rewrite IH. reflexivity.
    - apply bind_ext. intros x. rewrite IH. reflexivity.
  Qed.
  Lemma tr46_map1_run : forall flags c, c_tr46_map1 flags c = (T_tr46_map1 flags c, tr46_map1 flags c).
  Proof.
    intros. unfold c_tr46_map1, T_tr46_map1, tr46_map1. rewrite get_idna_map_run. norm. apply same.
    - ext. intros [m k]. cbn [fst]. norm. unfold copies, map_is, map_is_in. rewrite get_map_data_run.
      destruct (rd (t_flags tr46_data) (m_idx m)) as [f| | |]; cbn [bind after negb andb orb fst]; try (destruct (negb (has flags IDN2_USE_STD3_ASCII_RULES)); reflexivity).
      destruct (_ =? FLG_DISALLOWED); norm; cbn [negb andb orb]; [reflexivity|].
      destruct (_ =? FLG_MAPPED); norm; cbn [negb andb orb]; [reflexivity|].
      destruct (_ =? FLG_VALID); norm; cbn [negb andb orb]; [reflexivity|].
      destruct (_ =? FLG_IGNORED); norm; cbn [negb andb orb]; [reflexivity|].
      destruct (_ =? FLG_DEVIATION); norm; [destruct (has flags IDN2_TRANSITIONAL); reflexivity|].
      destruct (negb _); norm; cbn [andb]; [|reflexivity].
      destruct (_ =? FLG_DISALLOWED_STD3_VALID); norm; cbn [negb andb]; [reflexivity|].
      destruct (_ =? FLG_DISALLOWED_STD3_MAPPED); reflexivity.
    - ext. intros [m k]. cbn [fst]. norm. ext. intros [|]; [reflexivity|]. norm. ext. intros [|]; [rewrite get_map_data_run; reflexivity|].
      norm. ext. intros [|]; [reflexivity|]. norm. ext. intros [|]; [reflexivity|]. norm. ext. intros [|].
      { destruct (has flags IDN2_TRANSITIONAL); [rewrite get_map_data_run|]; reflexivity. }
      destruct (negb _); [|reflexivity]. norm. ext. intros [|]; [reflexivity|]. norm. ext. intros [|]; [rewrite get_map_data_run|]; reflexivity.
  Qed.
  Lemma tr46_map_run : forall cap flags l tmp, c_tr46_map cap flags l tmp = (T_tr46_map cap flags l tmp, tr46_map cap flags l tmp).
  Proof.
    intros cap flags. induction l as [|c r IH]; intros tmp; cbn [c_tr46_map T_tr46_map tr46_map]; [reflexivity|]. rewrite tr46_map1_run. norm. apply same.
    - rewrite <- Z.add_assoc. f_equal. ext. intros x. destruct (_ <? _); [|rewrite IH]; reflexivity.
    - ext. intros x. destruct (_ <? _); [|rewrite IH]; reflexivity.
  Qed.
  Lemma check1_run : forall flags s, c_tr46_check1 U flags s = (T_tr46_check1 U flags s, tr46_check1 U flags s).
  Proof.
    intros. unfold c_tr46_check1, T_tr46_check1, tr46_check1, c_inner. cbv zeta. destruct (has_ace_prefix s); [|rewrite label_test_run; reflexivity].
    rewrite u32_run. norm. apply same; ext; intros ace; rewrite decode_run; norm; ext; intros name; rewrite label_test_run; reflexivity.
  Qed.
  Lemma checks_run : forall flags ls err, c_tr46_checks U flags ls err = (T_tr46_checks U flags ls, tr46_checks U flags ls err).
  Proof.
    intros flags. induction ls as [|s rest IH]; intros err; cbn [c_tr46_checks T_tr46_checks tr46_checks]; [reflexivity|].
    assert (G : spend (zlen s + 1)
            (let+ t := c_tr46_check1 U flags s in
            match t with
            | Ok _ => c_tr46_checks U flags rest err
            | Fail rc => c_tr46_checks U flags rest rc
            | Undef => pure Undef
            | NoFuel => pure NoFuel
            end) = (T_scan s + T_tr46_check1 U flags s + match tr46_check1 U flags s with Ok (Ok _) | Ok (Fail _) => T_tr46_checks U flags rest | _ => 0 end,
            let* t := tr46_check1 U flags s in
            match t with
            | Ok _ => tr46_checks U flags rest err
            | Fail rc => tr46_checks U flags rest rc
            | Undef => Undef
            | NoFuel => NoFuel
            end)).
    { rewrite check1_run. norm. unfold T_scan. apply same.
      - destruct (tr46_check1 U flags s) as [[u|rc| | ]| | |]; norm; rewrite ?IH; norm; lia.
      - ext. intros [u|rc| |]; rewrite ?IH; reflexivity. }
    destruct s; [destruct rest; [reflexivity|]|]; exact G.
  Qed.
  Lemma tr46_run : forall src flags, c_tr46 U src flags = (T_tr46 U src flags, tr46 U src flags).
  Proof.
    intros. unfold c_tr46, T_tr46, tr46, T_scan. rewrite u8_run. norm. apply same.
    - replace (zlen (src ++ [0])) with (zlen src + 1) by (unfold zlen; rewrite app_length; cbn [length]; lia).
      match goal with |- _ + (_ + ?x) = _ + ?y => cut (x = y); [lia|] end.
      ext. intros d. cbv zeta. rewrite tr46_len_run. norm. ext. intros len2. destruct (_ <=? _); [reflexivity|]. rewrite tr46_map_run. norm. ext. intros tmp.
      destruct (_ <? _); [reflexivity|]. norm. ext. intros n. destruct (until0 n); [|reflexivity]. rewrite checks_run. norm. ext. intros err.
      destruct (negb _); [reflexivity|]. rewrite u32_run. norm. destruct (conv _ _); norm; lia.
    - ext. intros d. cbv zeta. rewrite tr46_len_run. norm. ext. intros len2. destruct (_ <=? _); [reflexivity|]. rewrite tr46_map_run. norm. ext. intros tmp.
      destruct (_ <? _); [reflexivity|]. norm. ext. intros n. destruct (until0 n); [|reflexivity]. rewrite checks_run. norm. ext. intros err.
      destruct (negb _); [reflexivity|]. rewrite u32_run. norm. reflexivity.
  Qed.
  Lemma lookup_labels_run : forall flags ls acc, c_lookup_labels U flags ls acc = (T_lookup_labels U flags ls acc, lookup_labels U flags ls acc).
  Proof.
    intros flags. induction ls as [|l rest IH]; intros acc; cbn [c_lookup_labels T_lookup_labels lookup_labels]; [reflexivity|]. cbv zeta.
    rewrite label_run. norm. unfold T_scan. apply same.
    - rewrite <- !Z.add_assoc. f_equal. f_equal. ext. intros tmp. destruct (_ <? _); [reflexivity|]. destruct (_ <? _); [reflexivity|]. norm. apply f_equal.
      destruct rest as [|l' rest']; [destruct (_ <? _); reflexivity|]. destruct (_ <? _); [reflexivity|]. destruct (_ <? _); [reflexivity|]. rewrite IH. reflexivity.
    - ext. intros tmp. destruct (_ <? _); [reflexivity|]. destruct (_ <? _); [reflexivity|]. norm.
      destruct rest as [|l' rest']; [destruct (_ <? _); reflexivity|]. destruct (_ <? _); [reflexivity|]. destruct (_ <? _); [reflexivity|]. rewrite IH. reflexivity.
  Qed.
  Lemma lookup_run : forall src flags, c_lookup_u8 U src flags = (T_lookup_u8 U src flags, lookup_u8 U src flags).
  Proof.
    intros. unfold c_lookup_u8, T_lookup_u8, lookup_u8. norm. apply same; ext; intros f; (destruct (negb (has f IDN2_NO_TR46)); [rewrite tr46_run; norm; ext; intros s|norm]);
      rewrite lookup_labels_run; reflexivity.
  Qed.
  Lemma reg_ulabel_run : forall u flags, c_reg_ulabel U u flags = (T_reg_ulabel U u flags, reg_ulabel U u flags).
  Proof.
    intros. unfold c_reg_ulabel, T_reg_ulabel, reg_ulabel, T_scan. rewrite ascii_run. norm. destruct (ascii_p u).
    { destruct (_ <? _); norm; apply same; lia || reflexivity. }
    rewrite u8_nfc_run. norm. apply same.
    - rewrite <- !Z.add_assoc. f_equal. f_equal. f_equal. ext. intros l. rewrite label_test_run. norm. ext. intros _. rewrite encode_run. norm. ext. intros e. norm. lia.
    - ext. intros l. rewrite label_test_run. norm. ext. intros _. rewrite encode_run. norm. ext. intros e. norm. reflexivity.
  Qed.
  Lemma reg_alabel_run : forall u a, c_reg_alabel U u a = (T_reg_alabel U u a, reg_alabel U u a).
  Proof.
    intros. unfold c_reg_alabel, T_reg_alabel, reg_alabel, T_scan. destruct (_ <? _); [reflexivity|]. destruct (_ <=? _); [reflexivity|]. destruct (negb (list_eqb _ _)); [reflexivity|].
    rewrite ascii_run. norm. destruct (negb (ascii_p a)); norm; [reflexivity|]. rewrite decode_run. norm. apply same.
    - rewrite <- !Z.add_assoc. f_equal. f_equal. f_equal. f_equal. ext. intros l. rewrite u32_run. norm. ext. intros b. destruct (_ <=? _); [reflexivity|]. cbv zeta.
      destruct u as [s|]; [rewrite list_eqb_run|]; norm.
      + rewrite Z.add_0_r. f_equal. ext. intros _. rewrite reg_ulabel_run. norm. ext. intros tmp. rewrite list_eqb_run. norm. lia.
      + rewrite reg_ulabel_run. norm. ext. intros tmp. rewrite list_eqb_run. norm. lia.
    - ext. intros l. rewrite u32_run. norm. ext. intros b. destruct (_ <=? _); [reflexivity|]. cbv zeta.
      destruct u as [s|]; [rewrite list_eqb_run|]; norm; [ext; intros _; norm|]; rewrite reg_ulabel_run; norm; ext; intros tmp; rewrite list_eqb_run; norm; reflexivity.
  Qed.
  Lemma register_run : forall u a c flags, c_register_u8 U u a c flags = (T_register_u8 U u a flags, register_u8 U u a c flags).
  Proof.
    intros u a c flags. unfold c_register_u8, T_register_u8, register_u8, c_deliver. destruct a as [a|]; [rewrite reg_alabel_run; reflexivity|].
    destruct u as [u|]; [rewrite reg_ulabel_run|]; reflexivity.
  Qed.
End Run.

Lemma unicode_label_run : forall s, c_unicode_label s = (T_unicode_label s, unicode_label s).
Proof.
  intros. unfold c_unicode_label, T_unicode_label, unicode_label. destruct (ace_anycase s); [apply decode_run|]. rewrite u8_run. norm.
  apply same; [destruct (conv _ _); norm; lia|reflexivity].
Qed.
Lemma unicode_labels_run : forall ls acc, c_unicode_labels ls acc = (T_unicode_labels ls acc, unicode_labels ls acc).
Proof.
  induction ls as [|s rest IH]; intros acc; [reflexivity|]. cbn [c_unicode_labels T_unicode_labels unicode_labels].
  rewrite unicode_label_run. unfold T_scan.
  destruct s as [|c s]; [destruct rest as [|r1 r2]; [reflexivity|]|]; cbv zeta; norm; (apply same;
    [rewrite <- !Z.add_assoc; f_equal; f_equal; ext; intros l; (destruct (_ <? _); [reflexivity|]); (destruct (_ <? _); [reflexivity|]); norm; f_equal
    |ext; intros l; (destruct (_ <? _); [reflexivity|]); (destruct (_ <? _); [reflexivity|]); norm]).
  all: try (norm; ext; intros acc'; rewrite IH; reflexivity).
  all: destruct rest as [|r1 r2]; [reflexivity|]; norm; ext; intros acc'; rewrite IH; reflexivity.
Qed.
Lemma unicode_run : forall s, c_unicode s = (T_to_unicode_8z4z s, unicode s).
Proof.
  intros. unfold c_unicode, T_to_unicode_8z4z, unicode. rewrite unicode_labels_run. norm. apply same; ext; intros o; unfold T_scan; norm; lia || reflexivity.
Qed.

(** The bounds of Cost*.v, for the counted functions. *)
Lemma counted : forall A (r : run A) t m n, r = (t, m) -> t <= n -> outcome r = m /\ steps r <= n.
Proof. intros A r t m n -> H. split; [reflexivity|exact H]. Qed.
Lemma counted_unicode : forall s c flags n, T_to_unicode_8z4z s <= n ->
  outcome (c_to_unicode_8z4z (Some s) c flags) = to_unicode_8z4z (Some s) c flags /\ steps (c_to_unicode_8z4z (Some s) c flags) <= n.
Proof. intros s c flags n H. unfold c_to_unicode_8z4z, c_deliver. rewrite unicode_run. split; [reflexivity|exact H]. Qed.
