(** Proofs about the pointer-level functions. *)
From Verif Require Import Base PunyBase Uenv Puny Utf8 SpecUtf8 Utf8Proofs SpecNfc SpecLookup Lookup MapProofs LookupTr46 LookupMap LookupIdem LookupMisc LookupCodes
  Api SpecUnicode SpecApi DecodeProofs NonZero LookupTop.

(** ** Strings and terminators *)
Lemma upto0_app : forall p q, ~ In 0 p -> upto0 (p ++ 0 :: q) = p.
Proof.
  induction p as [|c p IH]; intros q N; [reflexivity|]. cbn [app upto0]. destruct (c =? 0) eqn:E; zb; [exfalso; apply N; now left|].
  rewrite IH; auto. intros X; apply N; now right.
Qed.
Lemma upto0_id : forall l, ~ In 0 l -> upto0 l = l.
Proof.
  induction l as [|c p IH]; intros N; [reflexivity|]. cbn [upto0]. destruct (c =? 0) eqn:E; zb; [exfalso; apply N; now left|].
  rewrite IH; auto. intros X; apply N; now right.
Qed.
Lemma upto0_no0 : forall l, ~ In 0 (upto0 l).
Proof. induction l as [|c l IH]; [auto|]. cbn [upto0]. destruct (c =? 0) eqn:E; zb; [auto|]. intros [X|X]; [lia|auto]. Qed.
Lemma upto0_incl : forall l c, In c (upto0 l) -> In c l.
Proof. induction l as [|x l IH]; intros c; [auto|]. cbn [upto0]. destruct (x =? 0); [intros []|]. intros [X|X]; [now left|right; auto]. Qed.
Lemma upto0_zlen : forall l, zlen (upto0 l) <= zlen l.
Proof. induction l as [|x l IH]; [apply Z.le_refl|]. cbn [upto0]. pose proof (zlen_nonneg _ l). destruct (x =? 0); rewrite ?zlen_nil, ?zlen_cons; lia. Qed.
Lemma upto0_term : forall l, upto0 (l ++ [0]) = upto0 l.
Proof. induction l as [|x l IH]; [reflexivity|]. cbn [app upto0]. now rewrite IH. Qed.
Lemma u32_no0 : forall l, u32_string l -> ~ In 0 l.
Proof. intros l F I. unfold u32_string in F. rewrite Forall_forall in F. apply F in I. lia. Qed.

Lemma conv0 : forall l s, utf8 l s -> u32_to_u8 (l ++ [0]) = Some (s ++ [0]).
Proof. intros l s H. apply u32_to_u8_iff in H. rewrite u32_to_u8_app, H. reflexivity. Qed.
Lemma conv0_none : forall l, ~ (exists s, utf8 l s) -> u32_to_u8 (l ++ [0]) = None.
Proof.
  intros l H. rewrite u32_to_u8_app. destruct (u32_to_u8 l) as [s|] eqn:E; [|reflexivity]. exfalso. apply H. exists s. now apply u32_to_u8_iff.
Qed.
Lemma conv0_inv : forall l b, u32_to_u8 (l ++ [0]) = Some b -> exists s, utf8 l s /\ b = s ++ [0].
Proof.
  intros l b H. rewrite u32_to_u8_app in H. destruct (u32_to_u8 l) as [s|] eqn:E; [|discriminate]. exists s. split; [now apply u32_to_u8_iff|].
  change (u32_to_u8 [0]) with (Some [0]) in H. congruence.
Qed.
Lemma conv_str : forall l s, ~ In 0 l -> utf8 l s -> upto0 (s ++ [0]) = s.
Proof. intros l s N H. apply upto0_app. intros I. apply N. apply (utf8_In l s 0 H) in I; [auto|lia]. Qed.

(** ** What each function does with its pointers *)
Lemma deliver_ok : forall o m rc c, deliver o m = Ok (rc, c) ->
  (exists r, m = Ok r /\ rc = IDN2_OK /\ c = store o (Some r)) \/ (m = Fail rc /\ c = o).
Proof. intros o [r|e| |] rc c H; cbn [deliver] in H; try discriminate; injection H as <- <-; eauto. Qed.


(** Every function is "compute a code or a string, then deliver". *)
Definition shaped (F : function) : Prop :=
  forall s f, exists m : out (list Z), nz m /\ forall o, F (Some s) o f = deliver o m.

Lemma nz_unicode : forall s, nz (unicode s).
Proof.
  intros s. unfold unicode. apply nz_bind; [|intros; nzt]. generalize (@nil Z). induction (split_dots s) as [|x ls IH]; intros acc; cbn [unicode_labels]; [nzt|].
  unfold unicode_label. cbv zeta. destruct x; destruct ls; nzt; (destruct (ace_anycase _)); nzt.
Qed.
#[export] Hint Resolve nz_unicode nz_lookup : nz.

(** A result delivered through a local variable. *)
Lemma via_local : forall o (m : out (list Z)) j, nz m ->
  (let* (rc, loc) := deliver (Some j) m in if rc =? IDN2_OK then Ok (rc, store o (contents loc)) else Ok (rc, o)) = deliver o m.
Proof.
  intros o [r|rc| |] j NZ; cbn [deliver bind]; try reflexivity. specialize (NZ rc eq_refl). destruct (rc =? IDN2_OK) eqn:E; [|reflexivity].
  apply Z.eqb_eq in E. contradiction.
Qed.
Definition utf8_out (r : list Z) : out (list Z) :=
  match u32_to_u8 (upto0 r ++ [0]) with None => Fail IDN2_ENCODING_ERROR | Some b => Ok (upto0 b) end.
Lemma nz_utf8_out : forall r, nz (utf8_out r). Proof. intros. unfold utf8_out. nzt. Qed.
Definition locale_out (L : locale) (b : list Z) : out (list Z) :=
  match to_locale L b with None => Fail IDN2_ENCODING_ERROR | Some r => Ok r end.
Lemma nz_locale_out : forall L r, nz (locale_out L r). Proof. intros. unfold locale_out. nzt. Qed.
#[export] Hint Resolve nz_utf8_out nz_locale_out : nz.

Lemma f_8z8z : forall j s o f, to_unicode_8z8z j (Some s) o f = deliver o (let* r := unicode s in utf8_out r).
Proof.
  intros. unfold to_unicode_8z8z, to_unicode_8z4z. pose proof (nz_unicode s) as N.
  destruct (unicode s) as [r|rc| |]; cbn [deliver bind store contents]; try reflexivity.
  - cbn. unfold utf8_out. destruct (u32_to_u8 _); reflexivity.
  - specialize (N rc eq_refl). destruct (rc =? IDN2_OK) eqn:E; [apply Z.eqb_eq in E; contradiction|reflexivity].
Qed.
Lemma f_8zlz : forall L j s o f, to_unicode_8zlz L j (Some s) o f = deliver o (let* b := (let* r := unicode s in utf8_out r) in locale_out L b).
Proof.
  intros. unfold to_unicode_8zlz. rewrite f_8z8z. assert (N : nz (let* r := unicode s in utf8_out r)) by nzt.
  destruct (let* r := unicode s in utf8_out r) as [b|rc| |]; cbn [deliver bind store contents]; try reflexivity.
  - cbn. unfold locale_out. destruct (to_locale L b); reflexivity.
  - specialize (N rc eq_refl). destruct (rc =? IDN2_OK) eqn:E; [apply Z.eqb_eq in E; contradiction|reflexivity].
Qed.
Lemma f_lzlz : forall L j s o f, to_unicode_lzlz L j (Some s) o f =
  deliver o (match from_locale L s with None => Fail IDN2_ICONV_FAIL | Some b => let* b := (let* r := unicode b in utf8_out r) in locale_out L b end).
Proof. intros. unfold to_unicode_lzlz. destruct (from_locale L s); [apply f_8zlz|reflexivity]. Qed.
Definition utf8_in (l : list Z) (k : list Z -> out (list Z)) : out (list Z) :=
  match u32_to_u8 (l ++ [0]) with None => Fail IDN2_ENCODING_ERROR | Some b => k (upto0 b) end.
Lemma nz_utf8_in : forall l k, (forall s, nz (k s)) -> nz (utf8_in l k). Proof. intros. unfold utf8_in. nzt. Qed.
Lemma f_4z4z : forall j l o f, to_unicode_4z4z j (Some l) o f = deliver o (utf8_in (upto0 l) unicode).
Proof.
  intros. unfold to_unicode_4z4z, utf8_in. destruct (u32_to_u8 _); [|reflexivity]. unfold to_unicode_8z4z. apply via_local. auto with nz.
Qed.
Lemma f_4z : forall U l o f, to_ascii_4z U (Some l) o f = deliver o (utf8_in (upto0 l) (fun s => lookup_u8 U s f)).
Proof. intros. unfold to_ascii_4z, utf8_in. destruct (u32_to_u8 _); reflexivity. Qed.
Lemma f_4i2 : forall U j l o f, to_ascii_4i2 U j (Some l) o f = deliver o (utf8_in l (fun s => lookup_u8 U s f)).
Proof.
  intros. unfold to_ascii_4i2, utf8_in. destruct (u32_to_u8 _); [|reflexivity]. unfold idn2_lookup_u8. apply via_local. auto with nz.
Qed.
Lemma f_ul : forall U L s o f, idn2_lookup_ul U L (Some s) o f =
  deliver o (match from_locale L s with None => Fail IDN2_ICONV_FAIL | Some b => lookup_u8 U b (Z.lor f IDN2_NFC_INPUT) end).
Proof. intros. unfold idn2_lookup_ul. destruct (from_locale L s); reflexivity. Qed.

Lemma all_shaped : forall U L j F, In F (functions U L j) -> shaped F.
Proof.
  intros U L j F H s f. unfold functions, functions_null in H. cbn [app In] in H.
  repeat (destruct H as [<-|H]); try destruct H.
  - exists (lookup_u8 U s f). split; [auto with nz|reflexivity].
  - eexists. split; [|intros o; apply f_ul]. nzt.
  - eexists. split; [|intros o; apply f_4z]. apply nz_utf8_in. auto with nz.
  - eexists. split; [|intros o; apply f_4i2]. apply nz_utf8_in. auto with nz.
  - exists (lookup_u8 U s f). split; [auto with nz|reflexivity].
  - eexists. split; [|intros o; unfold to_ascii_lz; apply f_ul]. nzt.
  - exists (unicode s). split; [auto with nz|reflexivity].
  - eexists. split; [|intros o; apply f_4z4z]. apply nz_utf8_in. auto with nz.
  - eexists. split; [|intros o; apply f_lzlz]. nzt.
  - eexists. split; [|intros o; apply f_8z8z]. nzt.
  - eexists. split; [|intros o; apply f_8zlz]. nzt.
Qed.

(** ** C19, C20, C47 *)
Lemma null_input_all : forall U L j F, In F (functions_null U L j) -> null_input F.
Proof.
  intros U L j F H p flags. unfold functions_null in H. cbn [In] in H. repeat (destruct H as [<-|H]); try destruct H; split; reflexivity.
Qed.
Lemma null_cases : forall U L j F, In F (functions U L j) -> forall o f, F None o f = Ok (IDN2_OK, store o None) \/ F None o f = Ok (IDN2_OK, o).
Proof.
  intros U L j F H o f. unfold functions, functions_null in H. cbn [app In] in H. repeat (destruct H as [<-|H]); try destruct H; auto.
Qed.
Lemma null_output_all : forall U L j F, In F (functions U L j) -> null_output F.
Proof.
  intros U L j F H i p flags rc c E. destruct i as [s|].
  - destruct (all_shaped U L j F H s flags) as (m & _ & M). rewrite M in E |- *. destruct m; cbn [deliver store] in *; try discriminate; injection E as E1 E2; rewrite E1; reflexivity.
  - assert (A : forall o, exists c, F None o flags = Ok (IDN2_OK, c) /\ (o = None -> c = None)).
    { intros o. destruct (null_cases U L j F H o flags) as [->| ->]; eexists; split; try reflexivity; intros ->; reflexivity. }
    destruct (A (Some p)) as (c1 & E1 & _). destruct (A None) as (c2 & E2 & N). rewrite N in E2 by reflexivity. rewrite E1 in E. injection E as E3 E4. rewrite <- E3. exact E2.
Qed.
Lemma untouched_all : forall U L j F, In F (functions U L j) -> untouched_on_error F.
Proof.
  intros U L j F H i o flags rc o' E NZ. destruct i as [s|].
  - destruct (all_shaped U L j F H s flags) as (m & _ & M). rewrite M in E. destruct m; cbn [deliver] in *; congruence.
  - destruct (null_cases U L j F H o flags) as [X|X]; rewrite X in E; congruence.
Qed.
Lemma delivers_all : forall U L j F, In F (functions U L j) -> delivers F.
Proof.
  intros U L j F H s p flags c E. destruct (all_shaped U L j F H s flags) as (m & N & M). rewrite M in E. destruct m as [r|rc| |]; cbn [deliver store] in *; try discriminate.
  - exists r. split; [injection E as <-; reflexivity|]. intros q. rewrite M. reflexivity.
  - exfalso. apply (N rc eq_refl). injection E as -> _; reflexivity.
Qed.
Lemma null_8z8z : forall L j o f, to_unicode_8z8z j None o f = Ok (IDN2_OK, o) /\ to_unicode_8zlz L j None o f = Ok (IDN2_OK, o).
Proof. split; reflexivity. Qed.
Lemma null_8z8z_bad : ~ null_input (to_unicode_8z8z None) /\ forall L, ~ null_input (to_unicode_8zlz L None).
Proof. split; [|intros L]; intros H; destruct (H (Some [1]) 0) as (X & _); discriminate. Qed.

(** Local variables are never read before they are set. *)
Lemma locals_set : forall U L j1 j2 i o f, to_ascii_4i2 U j1 i o f = to_ascii_4i2 U j2 i o f /\
  to_unicode_4z4z j1 i o f = to_unicode_4z4z j2 i o f /\ to_unicode_8z8z j1 i o f = to_unicode_8z8z j2 i o f /\
  to_unicode_8zlz L j1 i o f = to_unicode_8zlz L j2 i o f /\ to_unicode_lzlz L j1 i o f = to_unicode_lzlz L j2 i o f.
Proof.
  intros. destruct i as [s|].
  - rewrite !f_4i2, !f_4z4z, !f_8z8z, !f_8zlz, !f_lzlz. auto.
  - repeat split; reflexivity.
Qed.

(** ** C21 *)
Lemma utf8_in_ok : forall l s k, ~ In 0 l -> utf8 l s -> utf8_in l k = k s.
Proof. intros l s k N H. unfold utf8_in. rewrite (conv0 l s H). now rewrite (conv_str l s). Qed.
Lemma utf8_in_bad : forall l k, ~ (exists s, utf8 l s) -> utf8_in l k = Fail IDN2_ENCODING_ERROR.
Proof. intros l k H. unfold utf8_in. now rewrite conv0_none. Qed.
Lemma ascii_agree : forall U j l s o f, u32_string l -> utf8 l s ->
  to_ascii_8z U (Some s) o f = idn2_lookup_u8 U (Some s) o f /\
  to_ascii_4z U (Some l) o f = idn2_lookup_u8 U (Some s) o f /\ to_ascii_4i2 U j (Some l) o f = idn2_lookup_u8 U (Some s) o f.
Proof.
  intros U j l s o f N H. apply u32_no0 in N. rewrite f_4z, f_4i2, upto0_id by auto. rewrite (utf8_in_ok l s) by auto. auto.
Qed.
Lemma ascii_bad : forall U j l o f, u32_string l -> ~ (exists s, utf8 l s) ->
  to_ascii_4z U (Some l) o f = Ok (IDN2_ENCODING_ERROR, o) /\ to_ascii_4i2 U j (Some l) o f = Ok (IDN2_ENCODING_ERROR, o).
Proof. intros U j l o f N H. apply u32_no0 in N. rewrite f_4z, f_4i2, upto0_id by auto. now rewrite !utf8_in_bad. Qed.
(** A zero inside the array ends the name, but the rest is still converted. *)
Lemma utf8_app_inv : forall a b s, utf8 (a ++ b) s -> exists x y, s = x ++ y /\ utf8 a x /\ utf8 b y.
Proof.
  intros a b s H. apply u32_to_u8_iff in H. rewrite u32_to_u8_app in H. destruct (u32_to_u8 a) as [x|] eqn:E1; [|discriminate].
  destruct (u32_to_u8 b) as [y|] eqn:E2; [|discriminate]. exists x, y. apply u32_to_u8_iff in E1, E2. split; [congruence|auto].
Qed.
Lemma ascii_embedded : forall U j l rest s t o f, u32_string l -> utf8 l s -> utf8 rest t ->
  to_ascii_4i2 U j (Some (l ++ 0 :: rest)) o f = idn2_lookup_u8 U (Some s) o f.
Proof.
  intros U j l rest s t o f N H R. apply u32_no0 in N. rewrite f_4i2. unfold utf8_in.
  assert (utf8 (l ++ 0 :: rest) (s ++ 0 :: t)) as X.
  { apply u32_to_u8_iff. apply u32_to_u8_iff in H, R. rewrite u32_to_u8_app, H. cbn [u32_to_u8]. rewrite R. reflexivity. }
  rewrite (conv0 _ _ X). rewrite <- app_assoc. cbn [app]. rewrite upto0_app; [reflexivity|]. intros I. apply N. apply (utf8_In l s 0 H) in I; [auto|lia].
Qed.
Lemma ascii_locale : forall U L x s o f, from_locale L x = Some s ->
  to_ascii_lz U L (Some x) o f = idn2_lookup_ul U L (Some x) o f /\
  idn2_lookup_ul U L (Some x) o f = idn2_lookup_u8 U (Some s) o (Z.lor f IDN2_NFC_INPUT).
Proof. intros U L x s o f E. unfold to_ascii_lz, idn2_lookup_ul. rewrite E. auto. Qed.
Lemma ascii_locale_bad : forall U L x o f, from_locale L x = None -> idn2_lookup_ul U L (Some x) o f = Ok (IDN2_ICONV_FAIL, o).
Proof. intros U L x o f E. unfold idn2_lookup_ul. now rewrite E. Qed.
Lemma ascii_locale_utf8 : forall U L x s o f, nfc_ok U -> c_string s -> opt_no_tr46 f = false -> from_locale L x = Some s ->
  to_ascii_lz U L (Some x) o f = to_ascii_8z U (Some s) o f.
Proof.
  intros U L x s o f K C N E. destruct (ascii_locale U L x s o f E) as (-> & ->). unfold to_ascii_8z, idn2_lookup_u8.
  now rewrite lookup_nfc_flag.
Qed.

(** ** C22 *)
Lemma copy_to_ok : forall a r, zlen r <= zlen a -> copy_to a r (zlen r) = Ok (r ++ skipn (length r) a).
Proof.
  intros a r H. unfold copy_to. destruct (_ || _) eqn:E.
  - apply orb_true_iff in E. rewrite !Z.ltb_lt in E. lia.
  - unfold zlen. rewrite Nat2Z.id, firstn_all. reflexivity.
Qed.
Lemma lookup_no0 : forall U s f r, nfc_ok U -> c_string s -> zlen s < two64 -> lookup_u8 U s f = Ok r -> ~ In 0 r.
Proof. intros U s f r K C L H. apply lookup_shape in H; auto. destruct H as (H & _). intros I. rewrite Forall_forall in H. apply H in I. lia. Qed.
Lemma f_4i : forall U j l o f, to_ascii_4i U j (Some l) o f =
  match utf8_in l (fun s => lookup_u8 U s f) with
  | Ok r => if 63 <? zlen (upto0 r) then Ok (IDN2_TOO_BIG_DOMAIN, o)
            else match o with None => Ok (IDN2_OK, None) | Some a => let* a' := copy_to a r (zlen (upto0 r)) in Ok (IDN2_OK, Some a') end
  | Fail rc => Ok (rc, o)
  | Undef => Undef
  | NoFuel => NoFuel
  end.
Proof.
  intros. unfold to_ascii_4i. rewrite f_4i2. set (m := utf8_in _ _).
  assert (NZ : nz m) by (apply nz_utf8_in; auto with nz). destruct m as [r|rc| |]; cbn [deliver bind store]; try reflexivity.
  specialize (NZ rc eq_refl). destruct (rc =? IDN2_OK) eqn:E; [|reflexivity]. apply Z.eqb_eq in E. contradiction.
Qed.
Lemma ascii_4i : forall U j l s f r a, nfc_ok U -> u32_string l -> utf8 l s -> zlen s < two64 -> lookup_u8 U s f = Ok r -> 63 <= zlen a ->
  to_ascii_4i U j (Some l) (Some a) f =
    if zlen r <=? 63 then Ok (IDN2_OK, Some (r ++ skipn (length r) a)) else Ok (IDN2_TOO_BIG_DOMAIN, Some a).
Proof.
  intros U j l s f r a K N H L E A. pose proof (u32_no0 _ N) as N0. rewrite f_4i, (utf8_in_ok l s), E by auto.
  assert (C : c_string s).
  { pose proof (utf8_bytes _ _ H) as B. apply Forall_forall. intros x I. assert (x <> 0) by (intros ->; apply N0; apply (utf8_In l s 0 H) in I; [auto|lia]).
    unfold bytes in B. rewrite Forall_forall in B. specialize (B x I). lia. }
  rewrite (upto0_id r) by (eapply lookup_no0; eauto). rewrite Z.leb_antisym. destruct (63 <? zlen r) eqn:E2; zb; cbn [negb]; [reflexivity|].
  rewrite copy_to_ok by lia. reflexivity.
Qed.
Lemma ascii_4i_fail : forall U j l s f rc o, u32_string l -> utf8 l s -> lookup_u8 U s f = Fail rc -> to_ascii_4i U j (Some l) o f = Ok (rc, o).
Proof. intros U j l s f rc o N H E. apply u32_no0 in N. rewrite f_4i, (utf8_in_ok l s), E by auto. reflexivity. Qed.
Lemma ascii_4i_bad : forall U j l f o, u32_string l -> ~ (exists s, utf8 l s) -> to_ascii_4i U j (Some l) o f = Ok (IDN2_ENCODING_ERROR, o).
Proof. intros U j l f o N H. rewrite f_4i, utf8_in_bad by auto. reflexivity. Qed.
Lemma ascii_4i_null : forall U j a f, a <> [] -> to_ascii_4i U j None None f = Ok (IDN2_OK, None) /\
  to_ascii_4i U j None (Some a) f = Ok (IDN2_OK, Some (0 :: tl a)).
Proof. intros U j a f H. split; [reflexivity|]. destruct a; [congruence|reflexivity]. Qed.
Lemma ascii_4i_noout : forall U j l a f rc c, to_ascii_4i U j (Some l) (Some a) f = Ok (rc, c) -> to_ascii_4i U j (Some l) None f = Ok (rc, None).
Proof.
  intros U j l a f rc c. rewrite !f_4i. destruct (utf8_in _ _) as [r|e| |]; try discriminate.
  - destruct (63 <? _).
    + intros H. injection H as <- _. reflexivity.
    + destruct (copy_to _ _ _); cbn [bind]; try discriminate. intros H. injection H as <- _. reflexivity.
  - intros H. injection H as <- _. reflexivity.
Qed.
Lemma ascii_4i_untouched : forall U j i o f rc c, to_ascii_4i U j i o f = Ok (rc, c) -> rc <> IDN2_OK -> c = o.
Proof.
  intros U j i o f rc c H N. destruct i as [l|].
  - rewrite f_4i in H. destruct (utf8_in _ _) as [r|e| |]; try discriminate; [|injection H; auto].
    destruct (63 <? _); [injection H; auto|]. destruct o as [a|]; [|injection H as <- _; congruence].
    destruct (copy_to _ _ _); cbn [bind] in H; try discriminate. injection H as <- _; congruence.
  - destruct o as [[|x a]|]; cbn [to_ascii_4i] in H; try discriminate; injection H as <- _; congruence.
Qed.
Lemma unicode_44i_null : forall j arr n f, to_unicode_44i j None arr (Some n) f = Ok (IDN2_OK, arr, Some 0) /\ to_unicode_44i j None arr None f = Ok (IDN2_OK, arr, None).
Proof. intros. split; reflexivity. Qed.
Lemma utf8_prefix : forall l s, utf8 l s -> c_string (upto0 (s ++ [0])).
Proof.
  intros l s H. pose proof (utf8_bytes _ _ H) as B. apply Forall_forall. intros x I. pose proof (upto0_no0 (s ++ [0])) as N.
  assert (x <> 0) by congruence. rewrite upto0_term in I. apply upto0_incl in I. unfold bytes in B. rewrite Forall_forall in B. specialize (B x I). lia.
Qed.
Lemma ascii_4i_safe : forall U j l a f, nfc_ok U -> zlen l < 4611686018427387904 -> 63 <= zlen a -> safe (to_ascii_4i U j (Some l) (Some a) f).
Proof.
  intros U j l a f K L A. rewrite f_4i. unfold utf8_in. destruct (u32_to_u8 (l ++ [0])) as [b|] eqn:E; [|exact I].
  apply conv0_inv in E. destruct E as (s & H & ->). pose proof (utf8_prefix l s H) as C.
  assert (LS : zlen (upto0 (s ++ [0])) < two64).
  { rewrite upto0_term. pose proof (upto0_zlen s). apply utf8_len in H. unfold two64. lia. }
  pose proof (lookup_safe U _ f K C LS) as S. destruct (lookup_u8 U _ f) as [r|rc| |] eqn:E; try exact I; try contradiction.
  rewrite (upto0_id r) by (eapply lookup_no0; eauto). destruct (63 <? zlen r) eqn:E2; zb; [exact I|]. rewrite copy_to_ok by lia. exact I.
Qed.

(** ** C23 - C26 *)
Lemma unicode_safe : forall s, c_string s -> zlen s < two64 -> safe (unicode s).
Proof. intros s C L. pose proof (unicode_codes s C L) as X. destruct (unicode s); try exact I; contradiction. Qed.
Lemma u32_c_string : forall l s, ~ In 0 l -> utf8 l s -> c_string s.
Proof.
  intros l s N0 H. pose proof (utf8_bytes _ _ H) as B. apply Forall_forall. intros x I. assert (x <> 0) by (intros ->; apply N0; apply (utf8_In l s 0 H) in I; [auto|lia]).
  unfold bytes in B. rewrite Forall_forall in B. specialize (B x I). lia.
Qed.
Lemma unicode_4z4z : forall j l s o f, u32_string l -> utf8 l s -> to_unicode_4z4z j (Some l) o f = to_unicode_8z4z (Some s) o f.
Proof. intros j l s o f N H. apply u32_no0 in N. rewrite f_4z4z, upto0_id, (utf8_in_ok l s) by auto. reflexivity. Qed.
Lemma unicode_4z4z_bad : forall j l o f, u32_string l -> ~ (exists s, utf8 l s) -> to_unicode_4z4z j (Some l) o f = Ok (IDN2_ENCODING_ERROR, o).
Proof. intros j l o f N H. apply u32_no0 in N. rewrite f_4z4z, upto0_id, utf8_in_bad by auto. reflexivity. Qed.
Lemma utf8_out_ok : forall r b, u32_string r -> utf8 r b -> utf8_out r = Ok b.
Proof. intros r b N H. apply u32_no0 in N. unfold utf8_out. rewrite upto0_id by auto. rewrite (conv0 r b H), (conv_str r b); auto. Qed.
Lemma utf8_out_bad : forall r, u32_string r -> ~ (exists b, utf8 r b) -> utf8_out r = Fail IDN2_ENCODING_ERROR.
Proof. intros r N H. apply u32_no0 in N. unfold utf8_out. rewrite upto0_id by auto. now rewrite conv0_none. Qed.
Lemma unicode_8z8z : forall j s o f, c_string s -> zlen s < two64 ->
  match unicode s with
  | Ok r => (forall b, utf8 r b -> to_unicode_8z8z j (Some s) o f = Ok (IDN2_OK, store o (Some b))) /\
            (~ (exists b, utf8 r b) -> to_unicode_8z8z j (Some s) o f = Ok (IDN2_ENCODING_ERROR, o))
  | Fail rc => to_unicode_8z8z j (Some s) o f = Ok (rc, o)
  | _ => False
  end.
Proof.
  intros j s o f C L. rewrite f_8z8z. pose proof (unicode_safe s C L) as S. destruct (unicode s) as [r|rc| |] eqn:E; try contradiction; [|reflexivity].
  pose proof (unicode_u32 s r C L E) as N. cbn [bind]. split.
  - intros b H. rewrite (utf8_out_ok r b) by auto. reflexivity.
  - intros H. rewrite utf8_out_bad by auto. reflexivity.
Qed.
Lemma unicode_8zlz : forall L j s o f b, to_unicode_8z8z j (Some s) (Some None) f = Ok (IDN2_OK, Some (Some b)) ->
  to_unicode_8zlz L j (Some s) o f = match to_locale L b with Some x => Ok (IDN2_OK, store o (Some x)) | None => Ok (IDN2_ENCODING_ERROR, o) end.
Proof.
  intros L j s o f b H. rewrite f_8z8z in H. rewrite f_8zlz. destruct (let* r := unicode s in utf8_out r) eqn:E; cbn [deliver store bind] in *; try discriminate.
  unfold locale_out. assert (a = b) as -> by congruence. destruct (to_locale L b); reflexivity.
Qed.
Lemma unicode_8zlz_fail : forall L j s o f rc c, to_unicode_8z8z j (Some s) c f = Ok (rc, c) -> rc <> IDN2_OK -> to_unicode_8zlz L j (Some s) o f = Ok (rc, o).
Proof.
  intros L j s o f rc c H NZ. rewrite f_8z8z in H. rewrite f_8zlz. destruct (let* r := unicode s in utf8_out r) eqn:E; cbn [deliver store bind] in *; try discriminate; congruence.
Qed.
Lemma unicode_lzlz : forall L j x o f, to_unicode_lzlz L j (Some x) o f =
  match from_locale L x with Some s => to_unicode_8zlz L j (Some s) o f | None => Ok (IDN2_ICONV_FAIL, o) end.
Proof. intros. reflexivity. Qed.

(** ** C25 *)
Lemma f_44i : forall j l arr n f, to_unicode_44i j (Some l) arr n f =
  match utf8_in (upto0 l) unicode with
  | Ok r => let len := zlen (upto0 r) in
            let* arr' := match arr, n with
                         | Some a, Some n => let* a' := copy_to a r (if len <? n then len else n) in Ok (Some a')
                         | _, _ => Ok arr end in
            Ok (IDN2_OK, arr', match n with Some _ => Some len | None => None end)
  | Fail rc => Ok (rc, arr, n)
  | Undef => Undef
  | NoFuel => NoFuel
  end.
Proof.
  intros. unfold to_unicode_44i. rewrite f_4z4z, upto0_term.
  assert (U2 : upto0 (upto0 l) = upto0 l) by (apply upto0_id; apply upto0_no0). rewrite U2. set (m := utf8_in _ _).
  assert (NZ : nz m) by (apply nz_utf8_in; auto with nz). destruct m as [r|rc| |]; cbn [deliver bind store]; try reflexivity.
  specialize (NZ rc eq_refl). destruct (rc =? IDN2_OK) eqn:E; [|reflexivity]. apply Z.eqb_eq in E. contradiction.
Qed.
Lemma copy_to_min : forall a r n, 0 <= n <= zlen a -> n <= zlen r -> copy_to a r n = Ok (firstn (Z.to_nat n) r ++ skipn (Z.to_nat n) a).
Proof.
  intros a r n H L. unfold copy_to. destruct (_ || _) eqn:E; [|reflexivity]. apply orb_true_iff in E. rewrite !Z.ltb_lt in E. lia.
Qed.
Lemma unicode_44i : forall j l s f a n, u32_string l -> utf8 l s -> zlen s < two64 -> 0 <= n <= zlen a ->
  match unicode s with
  | Ok r => let k := Z.to_nat (Z.min (zlen r) n) in
            to_unicode_44i j (Some l) (Some a) (Some n) f = Ok (IDN2_OK, Some (firstn k r ++ skipn k a), Some (zlen r))
  | Fail rc => to_unicode_44i j (Some l) (Some a) (Some n) f = Ok (rc, Some a, Some n)
  | _ => False
  end.
Proof.
  intros j l s f a n N H L A. pose proof (u32_no0 _ N) as N0. pose proof (u32_c_string l s N0 H) as C. rewrite f_44i, upto0_id, (utf8_in_ok l s) by auto.
  pose proof (unicode_safe s C L) as S. destruct (unicode s) as [r|rc| |] eqn:E; try contradiction; [|reflexivity].
  pose proof (unicode_u32 s r C L E) as NR. rewrite (upto0_id r) by now apply u32_no0. cbv zeta.
  assert (M : (if zlen r <? n then zlen r else n) = Z.min (zlen r) n) by (destruct (zlen r <? n) eqn:X; zb; lia). rewrite M.
  rewrite copy_to_min by (pose proof (zlen_nonneg _ r); lia). reflexivity.
Qed.
Lemma unicode_44i_safe : forall j l arr n f, zlen l < 4611686018427387904 ->
  match arr, n with Some a, Some n => 0 <= n <= zlen a | _, _ => True end -> safe (to_unicode_44i j (Some l) arr n f).
Proof.
  intros j l arr n f L A. rewrite f_44i. unfold utf8_in. destruct (u32_to_u8 (upto0 l ++ [0])) as [b|] eqn:E; [|exact I].
  apply conv0_inv in E. destruct E as (s & H & ->). pose proof (utf8_prefix _ s H) as C.
  assert (LS : zlen (upto0 (s ++ [0])) < two64).
  { rewrite upto0_term. pose proof (upto0_zlen s). pose proof (upto0_zlen l). apply utf8_len in H. unfold two64. lia. }
  pose proof (unicode_safe _ C LS) as S. destruct (unicode _) as [r|rc| |] eqn:E; try exact I; try contradiction.
  pose proof (unicode_u32 _ r C LS E) as NR. rewrite (upto0_id r) by now apply u32_no0. cbv zeta. destruct arr as [a|]; [|exact I]. destruct n as [n|]; [|exact I].
  assert (M : (if zlen r <? n then zlen r else n) = Z.min (zlen r) n) by (destruct (zlen r <? n) eqn:X; zb; lia). rewrite M.
  rewrite copy_to_min by (pose proof (zlen_nonneg _ r); lia). exact I.
Qed.

Lemma unicode_44i_untouched : forall j i arr n f rc arr' n', to_unicode_44i j i arr n f = Ok (rc, arr', n') -> rc <> IDN2_OK -> arr' = arr /\ n' = n.
Proof.
  intros j i arr n f rc arr' n' H N. destruct i as [l|].
  - rewrite f_44i in H. destruct (utf8_in _ _) as [r|e| |]; try discriminate; [|injection H as _ <- <-; auto]. cbv zeta in H.
    match type of H with bind ?m _ = _ => destruct m end; cbn [bind] in H; try discriminate. injection H as <- _ _. congruence.
  - cbn [to_unicode_44i] in H. injection H as <- _ _. congruence.
Qed.
Lemma unicode_44i_noout : forall j l a n f rc arr' n', to_unicode_44i j (Some l) (Some a) (Some n) f = Ok (rc, arr', n') ->
  to_unicode_44i j (Some l) None (Some n) f = Ok (rc, None, n').
Proof.
  intros j l a n f rc arr' n'. rewrite !f_44i. destruct (utf8_in _ _) as [r|e| |]; try discriminate; cbv zeta.
  - destruct (copy_to _ _ _); cbn [bind]; try discriminate. intros H. injection H as <- _ <-. reflexivity.
  - intros H. injection H as <- _ <-. reflexivity.
Qed.
(** A zero in the middle of the input array ends the name. *)
Lemma unicode_44i_embedded : forall j l rest arr n f, ~ In 0 l -> to_unicode_44i j (Some (l ++ 0 :: rest)) arr n f = to_unicode_44i j (Some l) arr n f.
Proof. intros j l rest arr n f N. rewrite !f_44i, upto0_app, (upto0_id l) by auto. reflexivity. Qed.

(** ** idn2_to_unicode_8z4z as a whole *)
Lemma u8z4z_iff : forall s r q f, c_string s -> zlen s < two64 ->
  (to_unicode_8z4z (Some s) (Some q) f = Ok (IDN2_OK, Some (Some r)) <-> unicode_name s r).
Proof.
  intros s r q f C L. rewrite <- (unicode_iff s r C L). unfold to_unicode_8z4z. pose proof (nz_unicode s) as N.
  destruct (unicode s) as [x|rc| |]; cbn [deliver store]; split; intros H; try discriminate.
  - injection H as ->. reflexivity.
  - injection H as ->. reflexivity.
  - exfalso. apply (N rc eq_refl). injection H as -> _. reflexivity.
Qed.
Lemma u8z4z_codes : forall s o f, c_string s -> zlen s < two64 ->
  match to_unicode_8z4z (Some s) o f with
  | Ok (rc, o') => (rc = IDN2_OK /\ exists r, zlen r <= 255 /\ o' = store o (Some r)) \/ (In rc unicode_errors /\ o' = o)
  | _ => False
  end.
Proof.
  intros s o f C L. unfold to_unicode_8z4z. pose proof (unicode_codes s C L) as X. destruct (unicode s) as [x|rc| |]; cbn [deliver]; eauto.
Qed.
