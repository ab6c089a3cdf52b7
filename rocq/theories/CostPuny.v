(** Bounds for the searches in the tables and for the Punycode coder. *)
From Verif Require Import Base DataTypes Bsearch Tables Gentr46 Tr46Tables Tr46Map Puny PunyBase PunyRT Cost.
Local Open Scope Z_scope.

Lemma after_le : forall A (m : out A) k B, 0 <= B -> (forall a, m = Ok a -> k a <= B) -> after m k <= B.
Proof. intros A [a| | |] k B H G; cbn [after]; auto. Qed.
Lemma existsb_le : forall A (f : A -> bool) l, 0 <= T_existsb f l <= zlen l.
Proof. intros A f l. induction l as [|c r IH]; cbn [T_existsb]; rewrite ?zlen_nil, ?zlen_cons; [lia|]. destruct (f c); pose proof (zlen_nonneg _ r); lia. Qed.
Lemma existsb_full : forall A (f : A -> bool) l, existsb f l = false -> T_existsb f l = zlen l.
Proof. intros A f l. induction l as [|c r IH]; cbn [T_existsb existsb]; rewrite ?zlen_nil, ?zlen_cons; [reflexivity|]. destruct (f c); [discriminate|]. intros H. rewrite (IH H). reflexivity. Qed.
Lemma list_eqb_le : forall a b, 0 <= T_list_eqb a b <= zlen a.
Proof. induction a as [|x a IH]; intros [|y b]; cbn [T_list_eqb]; rewrite ?zlen_nil, ?zlen_cons; [lia..| |]; [pose proof (zlen_nonneg _ a); lia|]. specialize (IH b). destruct (x =? y); pose proof (zlen_nonneg _ a); lia. Qed.
Lemma casecmp_le : forall a b, 0 <= T_casecmp_eq a b <= zlen b.
Proof. induction a as [|x a IH]; intros [|y b]; cbn [T_casecmp_eq]; rewrite ?zlen_nil, ?zlen_cons; [lia|pose proof (zlen_nonneg _ b); lia|lia|]. specialize (IH b). destruct (_ =? _); pose proof (zlen_nonneg _ b); lia. Qed.

(** * Tables *)
Lemma bsearch_le : forall fuel cmp lo hi (k : nat), hi - lo < 2 ^ Z.of_nat k -> T_bsearch_loop fuel cmp lo hi <= Z.of_nat k.
Proof.
  induction fuel as [|fuel IH]; intros cmp lo hi k H; cbn [T_bsearch_loop]; [lia|].
  destruct (lo <? hi) eqn:E; [|lia]. apply Z.ltb_lt in E.
  destruct k as [|k]; [cbn in H; lia|].
  rewrite Nat2Z.inj_succ, Z.pow_succ_r in H by lia.
  cut (after (cmp ((lo + hi) / 2)) (fun r => if r <? 0 then T_bsearch_loop fuel cmp lo ((lo + hi) / 2) else if 0 <? r then T_bsearch_loop fuel cmp ((lo + hi) / 2 + 1) hi else 0) <= Z.of_nat k); [cbv zeta; lia|].
  assert (lo <= (lo + hi) / 2 < hi) by (split; [apply Z.div_le_lower_bound|apply Z.div_lt_upper_bound]; lia).
  pose proof (Z.div_mod (lo + hi) 2 ltac:(lia)). pose proof (Z.mod_pos_bound (lo + hi) 2 ltac:(lia)).
  apply after_le; [lia|]. intros r _. destruct (r <? 0); [apply IH; lia|]. destruct (0 <? r); [apply IH; lia|lia].
Qed.
Lemma property_le : forall c, T_property c <= 12.
Proof. intros c. unfold T_property, T_bsearch. apply (bsearch_le _ _ _ _ 12). vm_compute. reflexivity. Qed.
Lemma get_idna_map_le : forall c, T_get_idna_map c <= 13.
Proof.
  intros c. unfold T_get_idna_map, T_search_map, T_bsearch.
  destruct (c <=? 255); [apply (bsearch_le _ _ _ _ 13); vm_compute; reflexivity|].
  destruct (c <=? 65535); [apply (bsearch_le _ _ _ _ 13); vm_compute; reflexivity|].
  destruct (c <=? 16777215); [apply (bsearch_le _ _ _ _ 13); vm_compute; reflexivity|lia].
Qed.
Lemma get_nfcqc_le : forall c, T_get_nfcqc c <= 7.
Proof. intros c. unfold T_get_nfcqc, T_bsearch. apply (bsearch_le _ _ _ _ 7). vm_compute. reflexivity. Qed.

(** A code point in mapdata takes at most three bytes. *)
Fixpoint three (l : list Z) : bool :=
  match l with
  | a :: ((b :: c :: _) as r) => ((Z.land a 128 =? 0) || (Z.land b 128 =? 0) || (Z.land c 128 =? 0)) && three r
  | _ => true
  end.
Lemma mapdata_three : three (t_mapdata tr46_data) = true.
Proof. vm_compute. reflexivity. Qed.
Lemma three_tail : forall a l, three (a :: l) = true -> three l = true.
Proof. intros a [|b [|c l]] H; try reflexivity. cbn [three] in H. apply andb_prop in H. exact (proj2 H). Qed.
Lemma three_skipn : forall n l, three l = true -> three (skipn n l) = true.
Proof. induction n as [|n IH]; intros [|a l] H; cbn [skipn]; auto. apply IH. eapply three_tail, H. Qed.
Lemma stream_cp_le : forall s, three s = true -> T_stream_cp s <= 3.
Proof.
  intros [|a [|b [|c r]]] H; cbn [T_stream_cp]; try (repeat destruct (_ =? 0); lia).
  cbn [three] in H. apply andb_prop in H. destruct H as [H _].
  destruct (Z.land a 128 =? 0); [lia|]. destruct (Z.land b 128 =? 0); [lia|]. destruct (Z.land c 128 =? 0); [lia|discriminate].
Qed.
Lemma stream_cp_rest : forall s cp v r, stream_cp s cp = Ok (v, r) -> three s = true -> three r = true.
Proof.
  induction s as [|b s IH]; intros cp v r H K; cbn [stream_cp] in H; [discriminate|].
  destruct (_ =? 0); [injection H as _ <-; eapply three_tail, K|]. eapply IH; [exact H|eapply three_tail, K].
Qed.
Lemma stream_cps_le : forall n s, three s = true -> T_stream_cps n s <= 4 * Z.of_nat n.
Proof.
  induction n as [|n IH]; intros s H; cbn [T_stream_cps]; [lia|].
  pose proof (stream_cp_le s H).
  assert (after (stream_cp s 0) (fun p => T_stream_cps n (snd p)) <= 4 * Z.of_nat n); [|lia].
  apply after_le; [lia|]. intros [v r] E. cbn [snd]. apply IH. eapply stream_cp_rest; eauto.
Qed.
Lemma get_map_data_le : forall m, 0 <= m_n m <= 31 -> T_get_map_data m <= 124.
Proof.
  intros m H. unfold T_get_map_data. destruct (_ <? _); [lia|]. pose proof (stream_cps_le (Z.to_nat (m_n m)) _ (three_skipn (Z.to_nat (m_off m)) _ mapdata_three)). lia.
Qed.
Lemma Ok_inj : forall A (a b : A), Ok a = Ok b -> a = b.
Proof. intros A a b H. injection H. auto. Qed.
Lemma fill_value_n : forall a b p m, fill_value a b p = Ok m -> 0 <= m_n m <= 31.
Proof.
  intros a b p m H. destruct p as [|x p]; [discriminate|]. destruct p as [|y p]; [discriminate|]. destruct p as [|z p]; [discriminate|].
  unfold fill_value in H. cbv zeta in H. apply Ok_inj in H. subst m. cbn [m_n]. generalize (Z.shiftr (Z.lor (Z.lor (Z.shiftl x 16) (Z.shiftl y 8)) z) 17). intros v.
  assert (E : Z.land v 31 = v mod 32) by (apply (Z.land_ones v 5); lia). rewrite E. pose proof (Z.mod_pos_bound v 32 ltac:(lia)). lia.
Qed.
Lemma fill_map_n : forall c p m, fill_map c p = Ok m -> 0 <= m_n m <= 31.
Proof.
  intros c p m H. unfold fill_map in H.
  destruct (c <=? 255); [destruct p as [|? [|? ?]]; try discriminate; eapply fill_value_n, H|].
  destruct (c <=? 65535); [destruct p as [|? [|? [|? [|? ?]]]]; try discriminate; eapply fill_value_n, H|].
  destruct p as [|? [|? [|? [|? [|? ?]]]]]; try discriminate; eapply fill_value_n, H.
Qed.
Lemma search_map_n : forall c t s m k, search_map c t s = Ok (m, k) -> 0 <= m_n m <= 31.
Proof.
  intros c t s m k H. unfold search_map in H. apply bind_ok in H. destruct H as ([i|] & _ & H); [|injection H as <- _; cbn; lia].
  apply bind_ok in H. destruct H as (m' & E & H). injection H as <- _. eapply fill_map_n, E.
Qed.
Lemma get_idna_map_n : forall c m k, get_idna_map c = Ok (m, k) -> 0 <= m_n m <= 31.
Proof.
  intros c m k H. unfold get_idna_map, get_idna_map_in in H.
  destruct (c <=? 255); [eapply search_map_n, H|]. destruct (c <=? 65535); [eapply search_map_n, H|].
  destruct (c <=? 16777215); [eapply search_map_n, H|]. injection H as <- _. cbn. lia.
Qed.

(** * The encoder *)
Lemma adapt_loop_le : forall f (k : nat) d, 0 <= d <= 455 * 35 ^ Z.of_nat k -> T_adapt_loop f d <= Z.of_nat k.
Proof.
  induction f as [|f IH]; intros k d H; cbn [T_adapt_loop]; [lia|].
  destruct (455 <? d) eqn:E; [|lia]. apply Z.ltb_lt in E.
  destruct k as [|k]; [cbn in H; lia|]. rewrite Nat2Z.inj_succ, Z.pow_succ_r in H by lia.
  assert (T_adapt_loop f (d / 35) <= Z.of_nat k); [|lia]. apply IH. split; [apply Z.div_pos; lia|apply Z.div_le_upper_bound; lia].
Qed.
Lemma adapt_le : forall d n b, T_adapt d n b <= 5.
Proof.
  intros d n b. unfold T_adapt. destruct (n =? 0); [lia|]. apply (adapt_loop_le 32 5).
  match goal with |- 0 <= u32 ?x <= _ => pose proof (u32_range x) as H end. unfold two32 in H.
  change (455 * 35 ^ Z.of_nat 5) with 23897453125. lia.
Qed.

Lemma put_len : forall cap o x o', put cap o x = Ok o' -> zlen o' = zlen o + 1 /\ zlen o' <= cap.
Proof. intros cap o x o' H. unfold put in H. destruct (zlen o <? cap) eqn:E; [|discriminate]. injection H as <-. apply Z.ltb_lt in E. rewrite zlen_app, zlen_cons, zlen_nil. lia. Qed.
Lemma enc_varint_le : forall f cap mo o bias q k, zlen o <= cap ->
  match enc_varint f cap mo o bias q k with
  | Ok o' => T_enc_varint f cap mo o bias q k = zlen o' - zlen o /\ zlen o < zlen o' <= cap
  | _ => T_enc_varint f cap mo o bias q k <= cap - zlen o + 1
  end.
Proof.
  induction f as [|f IH]; intros cap mo o bias q k H; cbn [enc_varint T_enc_varint]; [lia|].
  destruct (mo <=? zlen o); [lia|]. cbv zeta. destruct (q <? thresh k bias).
  { destruct (put cap o (encode_digit q)) as [o'| | |] eqn:E; try lia. apply put_len in E. lia. }
  destruct (u32 (36 - thresh k bias) =? 0); [lia|].
  destruct (put cap o _) as [o'| | |] eqn:E; cbn [bind after]; try lia. apply put_len in E.
  specialize (IH cap mo o' bias ((q - thresh k bias) / u32 (36 - thresh k bias)) (u32 (k + 36)) ltac:(lia)).
  destruct (enc_varint f _ _ _ _ _ _); lia.
Qed.

Definition eq_n (n c : Z) : bool := c =? n.
Lemma enc_scan_le : forall cap mo b n l st, zlen (e_out st) <= cap ->
  match enc_scan cap mo b n l st with
  | Ok st' => T_enc_scan cap mo b n l st <= zlen l + 6 * (zlen (e_out st') - zlen (e_out st)) /\
              zlen (filter (eq_n n) l) <= zlen (e_out st') - zlen (e_out st) /\ zlen (e_out st') <= cap /\
              (0 <= e_h st -> e_h st + zlen (filter (eq_n n) l) <= maxint -> e_h st' = e_h st + zlen (filter (eq_n n) l))
  | _ => T_enc_scan cap mo b n l st <= zlen l + 6 * (cap - zlen (e_out st) + 1)
  end.
Proof.
  intros cap mo b n. induction l as [|c l IH]; intros st H; cbn [enc_scan T_enc_scan filter]; rewrite ?zlen_nil, ?zlen_cons; [lia|].
  pose proof (zlen_nonneg _ l) as L0.
  destruct (if c <? n then _ else _) as [delta| | |]; cbn [bind after]; try lia.
  change (eq_n n c) with (c =? n). destruct (c =? n) eqn:E.
  2:{ specialize (IH (mkest delta (e_out st) (e_bias st) (e_h st)) H). cbn [e_out e_h] in IH.
      destruct (enc_scan _ _ _ _ _ _); [|lia..]. destruct IH as (I1 & I2 & I3 & I4). split; [lia|]. split; [lia|]. split; [lia|]. exact I4. }
  pose proof (enc_varint_le 64 cap mo (e_out st) (e_bias st) delta 36 H) as V.
  destruct (enc_varint _ _ _ _ _ _ _) as [o| | |]; cbn [bind after]; try lia. destruct V as [V1 V2].
  pose proof (adapt_le delta (u32 (e_h st + 1)) (e_h st =? b)) as A.
  destruct (adapt _ _ _) as [bias| | |]; cbn [bind after]; try lia.
  specialize (IH (mkest 0 o bias (u32 (e_h st + 1))) ltac:(cbn [e_out]; lia)). cbn [e_out e_h] in IH.
  rewrite zlen_cons.
  destruct (enc_scan _ _ _ _ _ _) as [st'| | |]; [|lia..]. destruct IH as (I1 & I2 & I3 & I4).
  split; [lia|]. split; [lia|]. split; [lia|]. intros Hh Hm. pose proof (zlen_nonneg _ (filter (eq_n n) l)).
  rewrite (u32_id (e_h st + 1)) in I4 by (unfold two32, maxint in *; lia). rewrite I4 by lia. lia.
Qed.

Lemma filter_split : forall m l, zlen (filter (lt_n m) l) + zlen (filter (eq_n m) l) = zlen (filter (lt_n (m + 1)) l).
Proof.
  intros m l. induction l as [|c l IH]; cbn [filter]; [reflexivity|].
  change (lt_n m c) with (c <? m). change (lt_n (m + 1) c) with (c <? m + 1). change (eq_n m c) with (c =? m). destruct (c <? m) eqn:A; destruct (c =? m) eqn:B; destruct (c <? m + 1) eqn:C; rewrite ?zlen_cons; lia.
Qed.
Lemma filter_in : forall m l, In m l -> 1 <= zlen (filter (eq_n m) l).
Proof.
  intros m l H. assert (I : In m (filter (eq_n m) l)) by (apply filter_In; split; [exact H|unfold eq_n; lia]).
  destruct (filter (eq_n m) l); [destruct I|rewrite zlen_cons; pose proof (zlen_nonneg _ l0); lia].
Qed.
Lemma enc_main_le : forall f cap mo b L n st, Forall (fun c => c <= 1114111) L -> zlen L <= maxint -> 0 <= n ->
  zlen (e_out st) <= cap -> e_h st = zlen (filter (lt_n n) L) ->
  T_enc_main f cap mo b L n st <= (cap - zlen (e_out st) + 1) * (2 * zlen L + 7).
Proof.
  intros f cap mo b L. induction f as [|f IH]; intros n st HL HM Hn Ho Hh; cbn [T_enc_main];
    pose proof (zlen_nonneg _ L) as L0; (destruct (e_h st <? zlen L) eqn:E; [|nia]); [nia|].
  apply Z.ltb_lt in E. rewrite Hh in E.
  destruct (exists_unhandled n L E) as (c & Hc1 & Hc2).
  destruct (enc_next_spec n L maxint) as (M1 & M2 & M3). fold (enc_next n L) in *. cbv zeta. set (m := enc_next n L) in *.
  rewrite Forall_forall in HL.
  assert (Hm : In m L /\ n <= m).
  { destruct M2 as [M2|M2]; [|auto]. specialize (M3 c Hc1 Hc2). specialize (HL c Hc1). unfold maxint in *. lia. }
  destruct Hm as [Hm1 Hm2]. pose proof (HL m Hm1) as Hm3. cbv beta in Hm3.
  match goal with |- 1 + zlen L + ?r <= ?rhs => assert (K : r <= zlen L + 6 * (cap - zlen (e_out st) + 1) + (cap - zlen (e_out st)) * (2 * zlen L + 1)); [|nia] end.
  destruct (u32 (e_h st + 1) =? 0); [nia|]. destruct (_ <? u32 (m - n)); [nia|].
  match goal with |- T_enc_scan _ _ _ _ _ ?s + _ <= _ => pose proof (enc_scan_le cap mo b m L s Ho) as S; cbn [e_out e_h] in S end.
  destruct (enc_scan _ _ _ _ _ _) as [st'| | |]; cbn [after]; [|nia..].
  destruct S as (S1 & S2 & S3 & S4).
  assert (FE : zlen (filter (lt_n m) L) = zlen (filter (lt_n n) L)).
  { f_equal. apply filter_ext_in'. intros x Hx. unfold lt_n. destruct (x <? m) eqn:E4; destruct (x <? n) eqn:E5; auto; exfalso; [|lia]. apply Z.ltb_lt in E4. apply Z.ltb_ge in E5. specialize (M3 x Hx E5). lia. }
  pose proof (filter_split m L) as FS. pose proof (filter_in m L Hm1) as F1. pose proof (zlen_filter (lt_n (m + 1)) L) as FL.
  pose proof (zlen_nonneg _ (filter (lt_n n) L)).
  specialize (S4 ltac:(lia) ltac:(lia)).
  rewrite (u32_id (m + 1)) by (unfold two32; lia).
  specialize (IH (m + 1) (mkest (u32 (e_delta st' + 1)) (e_out st') (e_bias st') (e_h st'))).
  cbn [e_out e_h] in IH. rewrite Forall_forall in IH. specialize (IH HL HM ltac:(lia) S3 ltac:(lia)). nia.
Qed.

Lemma enc_basic_le : forall cap mo l o, zlen o <= cap -> T_enc_basic cap mo l o <= zlen l.
Proof.
  intros cap mo l. induction l as [|c l IH]; intros o H; cbn [T_enc_basic]; rewrite ?zlen_nil, ?zlen_cons; [lia|].
  pose proof (zlen_nonneg _ l). destruct (c <? 128).
  - destruct (_ <? 2); [lia|]. destruct (put cap o c) as [o'| | |] eqn:E; cbn [after]; try lia. apply put_len in E. specialize (IH o' ltac:(lia)). lia.
  - destruct (_ || _); [lia|]. specialize (IH o H). lia.
Qed.
Lemma enc_basic_facts : forall cap mo l o o', enc_basic cap mo l o = Ok o' -> zlen o <= cap ->
  zlen o' = zlen o + zlen (filter (lt_n 128) l) /\ zlen o' <= cap /\ Forall (fun c => c <= 1114111) l.
Proof.
  intros cap mo l. induction l as [|c l IH]; intros o o' H K; cbn [enc_basic filter] in *.
  { injection H as <-. rewrite zlen_nil. split; [lia|]. split; [exact K|constructor]. }
  unfold lt_n at 1. destruct (c <? 128) eqn:E.
  - destruct (_ <? 2); [discriminate|]. apply bind_ok in H. destruct H as (o1 & P & H). apply put_len in P.
    destruct (IH _ _ H ltac:(lia)) as (A & B & C). rewrite zlen_cons. repeat split; [lia|lia|]. constructor; [lia|exact C].
  - destruct ((1114111 <? c) || _) eqn:B; [discriminate|]. apply orb_false_iff in B. destruct B as [B _].
    destruct (IH _ _ H K) as (A & C & D). repeat split; auto. constructor; [lia|exact D].
Qed.
Lemma encode_le : forall L mo cap, 0 <= cap -> T_puny_encode L mo cap <= zlen L + (cap + 1) * (2 * zlen L + 7).
Proof.
  intros L mo cap H. unfold T_puny_encode. pose proof (zlen_nonneg _ L) as L0.
  destruct (maxint <? zlen L) eqn:E; [nia|]. apply Z.ltb_ge in E.
  pose proof (enc_basic_le cap mo L [] ltac:(rewrite zlen_nil; lia)) as B.
  match goal with |- _ + ?r <= _ => assert (K : r <= (cap + 1) * (2 * zlen L + 7)); [|lia] end.
  apply after_le; [nia|]. intros o Eo. destruct (enc_basic_facts _ _ _ _ _ Eo ltac:(rewrite zlen_nil; lia)) as (F1 & F2 & F3).
  rewrite zlen_nil in F1. pose proof (zlen_filter (lt_n 128) L). pose proof (zlen_nonneg _ o).
  cbv zeta. rewrite (u32_id (zlen o)) by (unfold two32, maxint in *; lia).
  apply after_le; [nia|]. intros o' Eo'.
  assert (G : zlen o' <= cap) by (destruct (0 <? zlen o); [apply put_len in Eo'; lia|injection Eo' as <-; lia]).
  pose proof (enc_main_le (S (length L)) cap mo (zlen o) L initial_n (mkest 0 o' initial_bias (zlen o)) F3 E ltac:(unfold initial_n; lia) G ltac:(cbn [e_h]; unfold initial_n; lia)) as M.
  cbn [e_out] in M. pose proof (zlen_nonneg _ o'). nia.
Qed.
Lemma enc_main_len : forall f cap mo b L n st o, enc_main f cap mo b L n st = Ok o -> zlen (e_out st) <= cap -> zlen o <= cap.
Proof.
  induction f as [|f IH]; intros cap mo b L n st o H K; cbn [enc_main] in H; (destruct (e_h st <? zlen L); [|injection H as <-; exact K]); [discriminate|].
  cbv zeta in H. destruct (_ =? 0); [discriminate|]. destruct (_ <? _); [discriminate|]. apply bind_ok in H. destruct H as (st' & S & H).
  match type of S with enc_scan _ _ _ _ _ ?s = _ => pose proof (enc_scan_le cap mo b (enc_next n L) L s K) as C end. rewrite S in C.
  eapply IH; [exact H|]. cbn [e_out]. lia.
Qed.
Lemma encode_len : forall L mo cap s, 0 <= cap -> puny_encode L mo cap = Ok s -> zlen s <= cap.
Proof.
  intros L mo cap s H E. unfold puny_encode in E. destruct (maxint <? zlen L); [discriminate|].
  apply bind_ok in E. destruct E as (o & Eo & E). destruct (enc_basic_facts _ _ _ _ _ Eo ltac:(rewrite zlen_nil; lia)) as (F1 & F2 & F3).
  cbv zeta in E. apply bind_ok in E. destruct E as (o' & Eo' & E). eapply enc_main_len; [exact E|]. cbn [e_out].
  destruct (0 <? _); [apply put_len in Eo'; lia|injection Eo' as <-; lia].
Qed.

(** * The decoder *)
Lemma dec_varint_le : forall inp bias i w k,
  match dec_varint inp bias i w k with
  | Ok (_, r) => T_dec_varint inp bias i w k = zlen inp - zlen r /\ zlen r < zlen inp
  | _ => T_dec_varint inp bias i w k <= zlen inp + 1
  end.
Proof.
  induction inp as [|c r IH]; intros bias i w k; cbn [dec_varint T_dec_varint]; rewrite ?zlen_nil, ?zlen_cons; [lia|].
  pose proof (zlen_nonneg _ r). cbv zeta. destruct (36 <=? _); [lia|]. destruct (w =? 0); [lia|]. destruct (_ <? decode_digit c); [lia|].
  destruct (decode_digit c <? _); [lia|]. destruct (_ =? 0); [lia|]. destruct (_ <? w); [lia|].
  specialize (IH bias (u32 (i + u32 (decode_digit c * w))) (u32 (w * u32 (36 - thresh k bias))) (u32 (k + 36))).
  destruct (dec_varint r _ _ _ _) as [[i' r']| | |]; lia.
Qed.
Lemma insert_len : forall cap o i n o', insert_at cap o i n = Ok o' -> zlen o' = zlen o + 1 /\ zlen o' <= cap.
Proof.
  intros cap o i n o' H. unfold insert_at in H. destruct (_ && _) eqn:E; [|discriminate]. injection H as <-.
  apply andb_prop in E. destruct E as [E E3]. apply andb_prop in E. destruct E as [E1 E2].
  rewrite zlen_app, zlen_cons. assert (zlen o = zlen (firstn (Z.to_nat i) o) + zlen (skipn (Z.to_nat i) o)) by (rewrite <- zlen_app, firstn_skipn; reflexivity). lia.
Qed.
Lemma dec_main_le : forall f cap mo inp o n i bias, zlen o <= cap ->
  T_dec_main f cap mo inp o n i bias <= zlen inp + 1 + (cap - zlen o + 1) * (cap + 6).
Proof.
  induction f as [|f IH]; intros cap mo inp o n i bias H; cbn [T_dec_main]; destruct inp as [|c r]; pose proof (zlen_nonneg _ o) as O0; try (rewrite ?zlen_nil; nia);
    pose proof (zlen_nonneg _ (c :: r)) as R0; [nia|].
  pose proof (dec_varint_le (c :: r) bias i 1 36) as V.
  destruct (dec_varint (c :: r) bias i 1 36) as [ [i1 rest]| | |]; cbn [after]; [|nia..].
  destruct V as [V1 V2]. rewrite V1. pose proof (zlen_nonneg _ rest). cbv zeta.
  pose proof (adapt_le (u32 (i1 - i)) (u32 (zlen o + 1)) (i =? 0)) as A.
  match goal with |- 1 + _ + (_ + ?r) <= _ => assert (K : r <= zlen rest + 1 + cap + (cap - zlen o) * (cap + 6)); [|nia] end.
  assert (P0 : 0 <= (cap - zlen o) * (cap + 6)) by (apply Z.mul_nonneg_nonneg; lia).
  apply after_le; [lia|]. intros bias' _. destruct (u32 (zlen o + 1) =? 0) eqn:Z0; [lia|]. destruct (_ <? _); [lia|]. destruct (_ || _); [lia|]. destruct (_ <=? _); [lia|].
  apply Z.eqb_neq in Z0. pose proof (u32_range (zlen o + 1)). pose proof (Z.mod_pos_bound i1 (u32 (zlen o + 1)) ltac:(lia)).
  match goal with |- T_insert_at _ _ + ?r <= _ => assert (K : r <= zlen rest + 1 + (cap - zlen o) * (cap + 6)); [|unfold T_insert_at; lia] end.
  apply after_le; [lia|]. intros o' Eo'. apply insert_len in Eo'. specialize (IH cap mo rest o' (u32 (n + i1 / u32 (zlen o + 1))) (u32 (i1 mod u32 (zlen o + 1) + 1)) bias' ltac:(lia)).
  replace (cap - zlen o) with (cap - zlen o' + 1) by lia. exact IH.
Qed.
Lemma dec_main_len : forall f cap mo inp o n i bias o', dec_main f cap mo inp o n i bias = Ok o' -> zlen o' <= zlen o + zlen inp.
Proof.
  induction f as [|f IH]; intros cap mo inp o n i bias o' H; cbn [dec_main] in H; destruct inp as [|c r];
    [injection H as <-; rewrite zlen_nil; lia|discriminate|injection H as <-; rewrite zlen_nil; lia|].
  apply bind_ok in H. destruct H as ([i1 rest] & V & H). pose proof (dec_varint_le (c :: r) bias i 1 36) as W. rewrite V in W.
  apply bind_ok in H. destruct H as (bias' & _ & H). destruct (_ =? 0); [discriminate|]. destruct (_ <? _); [discriminate|].
  destruct (_ || _); [discriminate|]. destruct (_ <=? _); [discriminate|]. apply bind_ok in H. destruct H as (o1 & I & H). apply insert_len in I.
  apply IH in H. lia.
Qed.
Lemma dec_check_le : forall l j b b', dec_check l j b = Ok b' -> 0 <= b <= j -> 0 <= b' <= j + zlen l.
Proof.
  induction l as [|c l IH]; intros j b b' H K; cbn [dec_check] in H; [injection H as <-; rewrite zlen_nil; lia|].
  destruct (dec_basic c); [|discriminate]. apply IH in H; [rewrite zlen_cons; lia|]. destruct (_ =? _); lia.
Qed.
Lemma dec_copy_len : forall cap l o o', dec_copy cap l o = Ok o' -> zlen o' = zlen o + zlen l /\ (zlen o <= cap -> zlen o' <= cap).
Proof.
  intros cap. induction l as [|c l IH]; intros o o' H; cbn [dec_copy] in H; [injection H as <-; rewrite zlen_nil; lia|].
  apply bind_ok in H. destruct H as (o1 & P & H). apply put_len in P. apply IH in H. rewrite zlen_cons. lia.
Qed.
Lemma dec_copy_le : forall cap l o, T_dec_copy cap l o <= zlen l.
Proof.
  intros cap. induction l as [|c l IH]; intros o; cbn [T_dec_copy]; rewrite ?zlen_nil, ?zlen_cons; [lia|]. pose proof (zlen_nonneg _ l).
  assert (after (put cap o c) (fun o' => T_dec_copy cap l o') <= zlen l); [|lia]. apply after_le; [lia|]. intros o' _. apply IH.
Qed.
Lemma zlen_firstn_le : forall A n (l : list A), zlen (firstn n l) <= zlen l.
Proof. intros. unfold zlen. rewrite firstn_length. lia. Qed.
Lemma zlen_skipn_le : forall A n (l : list A), zlen (skipn n l) <= zlen l.
Proof. intros. unfold zlen. rewrite skipn_length. lia. Qed.
Lemma decode_le : forall s mo cap, 0 <= cap -> T_puny_decode s mo cap <= 3 * zlen s + 1 + (cap + 1) * (cap + 6).
Proof.
  intros s mo cap H. unfold T_puny_decode. pose proof (zlen_nonneg _ s) as S0. destruct s as [|c0 s0]; [rewrite zlen_nil; nia|]. set (s := c0 :: s0) in *.
  pose proof (existsb_le _ (fun c => negb (dec_basic c)) s) as C. fold (T_forallb dec_basic s) in C. fold (T_dec_check s) in C.
  match goal with |- _ + ?r <= _ => assert (K : r <= 2 * zlen s + 1 + (cap + 1) * (cap + 6)); [|lia] end.
  apply after_le; [nia|]. intros b Eb. apply dec_check_le in Eb; [|lia]. apply after_le; [nia|]. intros c _.
  destruct (c =? delimiter).
  - destruct (_ || _); [nia|]. destruct (_ <=? b); [nia|].
    pose proof (dec_copy_le cap (firstn (Z.to_nat b) s) []) as D. pose proof (zlen_firstn_le _ (Z.to_nat b) s).
    match goal with |- _ + ?r <= _ => assert (K : r <= zlen s + 1 + (cap + 1) * (cap + 6)); [|lia] end.
    apply after_le; [nia|]. intros o Eo. apply dec_copy_len in Eo. rewrite zlen_nil in Eo. pose proof (zlen_nonneg _ o).
    pose proof (dec_main_le (length s) cap (if maxint <? mo then maxint else mo) (skipn (Z.to_nat (b + 1)) s) o initial_n 0 initial_bias ltac:(lia)) as M.
    pose proof (zlen_skipn_le _ (Z.to_nat (b + 1)) s). nia.
  - pose proof (dec_main_le (length s) cap (if maxint <? mo then maxint else mo) (skipn (Z.to_nat b) s) [] initial_n 0 initial_bias ltac:(rewrite zlen_nil; lia)) as M.
    pose proof (zlen_skipn_le _ (Z.to_nat b) s). rewrite zlen_nil in M. nia.
Qed.
Lemma decode_len : forall s mo cap l, puny_decode s mo cap = Ok l -> zlen l <= zlen s.
Proof.
  intros s mo cap l H. unfold puny_decode in H. destruct s as [|c0 s0]; [discriminate|]. set (s := c0 :: s0) in *.
  apply bind_ok in H. destruct H as (b & Eb & H). apply dec_check_le in Eb; [|lia]. cbv zeta in H. apply bind_ok in H. destruct H as (c & _ & H).
  destruct (c =? delimiter).
  - destruct (_ || _); [discriminate|]. destruct (_ <=? b); [discriminate|]. apply bind_ok in H. destruct H as (o & Eo & H).
    apply dec_copy_len in Eo. apply dec_main_len in H. rewrite zlen_nil in Eo.
    unfold zlen in *. rewrite firstn_length in Eo. rewrite skipn_length in H. lia.
  - apply dec_main_len in H. pose proof (zlen_skipn_le _ (Z.to_nat b) s). rewrite zlen_nil in H. lia.
Qed.
