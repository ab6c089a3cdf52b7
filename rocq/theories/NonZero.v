(** No function of the library returns IDN2_OK as an error: every [Fail rc] of
    the model has rc <> 0. *)
From Verif Require Import Base Uenv DataTypes Bsearch Tables Gentr46 Tr46Map Utf8 Bidi Context Idna Puny Lookup.

Definition nz {A} (m : out A) : Prop := forall rc, m = Fail rc -> rc <> IDN2_OK.
Lemma nz_ok : forall A (a : A), nz (Ok a). Proof. intros A a rc H. discriminate. Qed.
Lemma nz_undef : forall A, nz (@Undef A). Proof. intros A rc H. discriminate. Qed.
Lemma nz_nofuel : forall A, nz (@NoFuel A). Proof. intros A rc H. discriminate. Qed.
Lemma nz_fail : forall A rc, rc <> IDN2_OK -> nz (@Fail A rc). Proof. intros A rc H rc' E. congruence. Qed.
Lemma nz_bind : forall A B (m : out A) (f : A -> out B), nz m -> (forall a, nz (f a)) -> nz (bind m f).
Proof. intros A B [a|rc| |] f H G; cbn [bind]; [apply G| |apply nz_undef|apply nz_nofuel]. apply nz_fail. now apply H. Qed.
Lemma nz_conv : forall A (o : option A) rc, rc <> IDN2_OK -> nz (conv o rc).
Proof. intros A [a|] rc H; [apply nz_ok|now apply nz_fail]. Qed.
Create HintDb nz.
#[export] Hint Resolve nz_ok nz_undef nz_nofuel : nz.
Ltac nzt := repeat first
  [ progress auto with nz
  | match goal with
    | |- nz (bind _ _) => apply nz_bind; [|intros]
    | |- nz (Fail _) => apply nz_fail; discriminate
    | |- nz (conv _ _) => apply nz_conv; discriminate
    | |- nz (match ?x with _ => _ end) => destruct x
    | |- nz (let '(_, _) := ?x in _) => destruct x
    end ].

Lemma nz_put : forall c o x, nz (put c o x). Proof. intros. unfold put. nzt. Qed.
Lemma nz_rd : forall l i, nz (rd l i). Proof. intros. unfold rd. nzt. Qed.
Lemma nz_elem : forall A (t : list A) i, nz (elem t i). Proof. intros. unfold elem. nzt. Qed.
#[export] Hint Resolve nz_put nz_rd nz_elem : nz.
Lemma nz_bsearch_loop : forall fuel cmp lo hi, (forall i, nz (cmp i)) -> nz (bsearch_loop fuel cmp lo hi).
Proof. induction fuel as [|f IH]; intros cmp lo hi H; cbn [bsearch_loop]; nzt. Qed.
Lemma nz_bsearch : forall cmp n, (forall i, nz (cmp i)) -> nz (bsearch cmp n).
Proof. intros. unfold bsearch. now apply nz_bsearch_loop. Qed.
Lemma nz_property : forall cp, nz (property cp).
Proof. intros. unfold property, property_in. apply nz_bind; [apply nz_bsearch; intros; nzt|intros; nzt]. Qed.
#[export] Hint Resolve nz_property : nz.
Lemma nz_fill_value : forall a b p, nz (fill_value a b p). Proof. intros. unfold fill_value. nzt. Qed.
#[export] Hint Resolve nz_fill_value : nz.
Lemma nz_fill_map : forall c p, nz (fill_map c p). Proof. intros. unfold fill_map. nzt. Qed.
#[export] Hint Resolve nz_fill_map : nz.
Lemma nz_search_map : forall c t n, nz (search_map c t n).
Proof. intros. unfold search_map. apply nz_bind; [apply nz_bsearch; intros; unfold compare_idna_map; nzt|intros; nzt]. Qed.
#[export] Hint Resolve nz_search_map : nz.
Lemma nz_get_idna_map : forall c, nz (get_idna_map c). Proof. intros. unfold get_idna_map, get_idna_map_in. nzt. Qed.
Lemma nz_map_is : forall m f, nz (map_is m f). Proof. intros. unfold map_is, map_is_in. nzt. Qed.
Lemma nz_stream_cp : forall s cp, nz (stream_cp s cp). Proof. induction s; intros; cbn [stream_cp]; nzt. Qed.
#[export] Hint Resolve nz_stream_cp nz_get_idna_map nz_map_is : nz.
Lemma nz_stream_cps : forall n s, nz (stream_cps n s). Proof. induction n; intros; cbn [stream_cps]; nzt. Qed.
#[export] Hint Resolve nz_stream_cps : nz.
Lemma nz_get_map_data : forall m, nz (get_map_data m). Proof. intros. unfold get_map_data, get_map_data_in. nzt. Qed.
Lemma nz_get_nfcqc_map : forall c, nz (get_nfcqc_map c).
Proof. intros. unfold get_nfcqc_map, get_nfcqc_in. apply nz_bind; [apply nz_bsearch; intros; nzt|intros; nzt]. Qed.
#[export] Hint Resolve nz_get_map_data nz_get_nfcqc_map : nz.

(** ** Punycode *)
Lemma nz_adapt_loop : forall f k d, nz (adapt_loop f k d). Proof. induction f; intros; cbn [adapt_loop]; nzt. Qed.
#[export] Hint Resolve nz_adapt_loop : nz.
Lemma nz_adapt : forall d n b, nz (adapt d n b). Proof. intros. unfold adapt. cbv zeta. nzt. Qed.
Lemma nz_enc_varint : forall f cap mo o b q k, nz (enc_varint f cap mo o b q k).
Proof. induction f; intros; cbn [enc_varint]; cbv zeta; nzt. Qed.
#[export] Hint Resolve nz_adapt nz_enc_varint : nz.
Lemma nz_enc_scan : forall cap mo b n l st, nz (enc_scan cap mo b n l st).
Proof. induction l; intros; cbn [enc_scan]; cbv zeta; nzt. Qed.
#[export] Hint Resolve nz_enc_scan : nz.
Lemma nz_enc_main : forall f cap mo b l n st, nz (enc_main f cap mo b l n st).
Proof. induction f; intros; cbn [enc_main]; cbv zeta; nzt. Qed.
Lemma nz_enc_basic : forall cap mo l o, nz (enc_basic cap mo l o).
Proof. induction l; intros; cbn [enc_basic]; nzt. Qed.
#[export] Hint Resolve nz_enc_main nz_enc_basic : nz.
Lemma nz_encode : forall l mo cap, nz (puny_encode l mo cap). Proof. intros. unfold puny_encode. cbv zeta. nzt. Qed.
Lemma nz_dec_check : forall l j b, nz (dec_check l j b). Proof. induction l; intros; cbn [dec_check]; nzt. Qed.
Lemma nz_dec_copy : forall cap l o, nz (dec_copy cap l o). Proof. induction l; intros; cbn [dec_copy]; nzt. Qed.
Lemma nz_dec_varint : forall l b i w k, nz (dec_varint l b i w k). Proof. induction l; intros; cbn [dec_varint]; cbv zeta; nzt. Qed.
Lemma nz_insert_at : forall cap o i n, nz (insert_at cap o i n). Proof. intros. unfold insert_at. nzt. Qed.
#[export] Hint Resolve nz_dec_check nz_dec_copy nz_dec_varint nz_insert_at nz_encode : nz.
Lemma nz_dec_main : forall f cap mo inp o n i b, nz (dec_main f cap mo inp o n i b).
Proof. induction f; intros; destruct inp; cbn [dec_main]; cbv zeta; nzt. Qed.
#[export] Hint Resolve nz_dec_main : nz.
Lemma nz_decode : forall l mo cap, nz (puny_decode l mo cap). Proof. intros. unfold puny_decode. cbv zeta. nzt. Qed.
#[export] Hint Resolve nz_decode : nz.

(** ** Label tests *)
Lemma nz_each : forall f l, (forall c, nz (f c)) -> nz (each f l). Proof. induction l; intros; cbn [each]; nzt. Qed.
Lemma nz_each_pos : forall f n i, (forall c, nz (f c)) -> nz (each_pos f n i).
Proof. intros f n. induction n; intros; cbn [each_pos]; nzt. Qed.
Lemma nz_when : forall b t, nz t -> nz (when b t). Proof. intros [] t H; cbn [when]; nzt. Qed.
Lemma nz_zwnj_back : forall U l n, nz (zwnj_back U l n). Proof. intros U l n. induction n; cbn [zwnj_back]; cbv zeta; nzt. Qed.
Lemma nz_zwnj_fwd : forall U l, nz (zwnj_fwd U l). Proof. intros U l. induction l; cbn [zwnj_fwd]; cbv zeta; nzt. Qed.
#[export] Hint Resolve nz_zwnj_back nz_zwnj_fwd : nz.
Lemma nz_contextj_rule : forall U l p, nz (contextj_rule U l p).
Proof. intros. unfold contextj_rule, contextj_p, virama_before. cbv zeta. nzt. Qed.
Lemma nz_contexto_rule : forall U l p, nz (contexto_rule U l p).
Proof. intros. unfold contexto_rule, contexto_p. cbv zeta. nzt. Qed.
Lemma nz_bidi_ltr : forall U l e, nz (bidi_ltr U l e). Proof. intros U l. induction l; intros; cbn [bidi_ltr]; cbv zeta; nzt. Qed.
Lemma nz_bidi_rtl : forall U l e, nz (bidi_rtl U l e). Proof. intros U l. induction l; intros; cbn [bidi_rtl]; cbv zeta; nzt. Qed.
#[export] Hint Resolve nz_bidi_ltr nz_bidi_rtl : nz.
Lemma nz_bidi : forall U l, nz (bidi U l). Proof. intros. unfold bidi. cbv zeta. nzt. Qed.
Lemma nz_std3 : forall m, nz (std3_exempt m). Proof. intros. unfold std3_exempt. nzt. Qed.
#[export] Hint Resolve nz_contextj_rule nz_contexto_rule nz_bidi nz_std3 : nz.
Lemma nz_label_test : forall U what l, nz (label_test U what l).
Proof.
  intros. unfold label_test.
  repeat (apply nz_bind; [|intros _]); apply nz_when; try (apply nz_each; intros); try (apply nz_each_pos; intros); nzt;
    unfold test_nfc, test_2hyphen, test_hyphen_startend, test_leading_combining, test_disallowed1, test_contextj1, test_contexto1,
      test_contexto_with1, test_unassigned1, disallowed_p, contextj_p, contexto_p, unassigned_p; nzt.
  all: try (apply nz_each; intros; first [unfold test_dot1; nzt; fail | unfold test_status1; cbv zeta; nzt]).
  apply nz_fail. destruct (has _ _); discriminate.
Qed.
Lemma nz_isNFC : forall U l s last r, nz (isNFC_loop U l s last r).
Proof. intros U l. induction l; intros; cbn [isNFC_loop]; cbv zeta; nzt. Qed.
#[export] Hint Resolve nz_label_test nz_isNFC : nz.
Lemma nz_u8_nfc : forall U s b, nz (u8_to_u32_nfc U s b). Proof. intros. unfold u8_to_u32_nfc, isNFC. nzt. Qed.
#[export] Hint Resolve nz_u8_nfc : nz.

(** ** Lookup *)
Lemma nz_label_tail : forall U s o n f, nz (label_tail U s o n f).
Proof. intros. unfold label_tail. cbv zeta. apply nz_bind; [nzt|intros]. apply nz_bind; [apply nz_when; nzt|intros]. nzt. Qed.
#[export] Hint Resolve nz_label_tail : nz.
Lemma nz_label : forall U s n f, nz (label U s n f). Proof. intros. unfold label. nzt. Qed.
Lemma nz_tr46_len : forall f l n, nz (tr46_len f l n). Proof. induction l; intros; cbn [tr46_len]; unfold tr46_len1; nzt. Qed.
Lemma nz_tr46_map : forall cap f l n, nz (tr46_map cap f l n). Proof. induction l; intros; cbn [tr46_map]; unfold tr46_map1; nzt. Qed.
#[export] Hint Resolve nz_label nz_tr46_len nz_tr46_map : nz.
Lemma nz_tr46_checks : forall U f l e, nz (tr46_checks U f l e).
Proof. induction l; intros; cbn [tr46_checks]; unfold tr46_check1; cbv zeta; nzt. Qed.
#[export] Hint Resolve nz_tr46_checks : nz.
Lemma nz_tr46 : forall U s f, nz (tr46 U s f).
Proof.
  intros. unfold tr46. cbv zeta. apply nz_bind; [nzt|intros]. apply nz_bind; [nzt|intros]. destruct (_ <=? _); [nzt|]. apply nz_bind; [nzt|intros].
  destruct (_ <? _); [nzt|]. apply nz_bind; [nzt|intros]. destruct (until0 _); [|nzt]. apply nz_bind; [nzt|intros err].
  destruct (negb (err =? IDN2_OK)) eqn:E; [|nzt]. apply nz_fail. intros ->. discriminate.
Qed.
Lemma nz_lookup_labels : forall U f l acc, nz (lookup_labels U f l acc).
Proof. induction l; intros; cbn [lookup_labels]; cbv zeta; nzt. Qed.
#[export] Hint Resolve nz_tr46 nz_lookup_labels : nz.
Lemma nz_lookup : forall U s f, nz (lookup_u8 U s f).
Proof. intros. unfold lookup_u8, set_default_flags. nzt. Qed.
