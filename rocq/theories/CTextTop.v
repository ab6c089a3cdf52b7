(** From the data files to the C files and what they declare. *)
From Coq Require Import String Ascii Lia Permutation.
From Verif Require Import Base PunyBase DataTypes Gentr46 Gentr46Proofs Gentr46Read Gentr46Print Tables SpecGen Scan ScanProofs GenText SpecScan SpecCText CTextLex CTextTr46.
Local Open Scope list_scope.
Local Open Scope Z_scope.

(** * Everything in the generated arrays is a byte *)
Lemma cp_stream_bytes : forall c, Forall ubyte (cp_stream c).
Proof.
  assert (L : forall x, ubyte (Z.land x 0x7f)) by (intros; rewrite land7f; pose proof (Z.mod_pos_bound x 128 eq_refl); unfold ubyte; lia).
  assert (H : forall x, ubyte (Z.lor 0x80 (Z.land x 0x7f))).
  { intros. pose proof (Z.mod_pos_bound x 128 eq_refl). rewrite land7f, lor80 by assumption. unfold ubyte. lia. }
  intros c. unfold cp_stream.
  repeat match goal with |- context [if ?b then _ else _] => destruct b end; repeat constructor; auto; try apply L; apply H.
Qed.
Lemma add_mapping_bytes : forall m n pos acc p a k, Forall ubyte acc -> add_mapping m n pos acc = Some (p, a, k) -> Forall ubyte a.
Proof.
  induction m as [|c m IH]; intros n pos acc p a k F H; cbn [add_mapping] in H; [congruence|].
  destruct (MAPDATA_SIZE <=? pos); [discriminate|]. destruct (TMP_SIZE <=? n); [discriminate|].
  destruct (MAPDATA_SIZE <? pos + zlen (cp_stream c)); [discriminate|].
  eapply IH; [|exact H]. rewrite rev_append_rev. apply Forall_app. split; [apply Forall_rev, cp_stream_bytes | exact F].
Qed.
Definition flag_ok (e : gmap) : Prop := ubyte (gflags e).
Lemma flag_of_byte : forall s, ubyte (flag_of s).
Proof. intros []; cbv; split; congruence. Qed.

Definition plane (hi : Z) (e : gmap) : Prop := 0 <= g1 e /\ g2 e <= hi.
Lemma read_row_keeps : forall r maps cnt pos acc maps' cnt' pos' acc', read_row r maps cnt pos acc = Some (maps', cnt', pos', acc') ->
  Forall ubyte acc -> Forall flag_ok maps -> zlen maps = cnt -> 0 <= cnt < IDNA_MAP_SIZE ->
  Forall ubyte acc' /\ Forall flag_ok maps' /\ zlen maps' = cnt' /\ 0 <= cnt' < IDNA_MAP_SIZE /\
  (row_ok r -> Forall (plane 0x10ffff) maps -> Forall (plane 0x10ffff) maps').
Proof.
  intros r maps cnt pos acc maps' cnt' pos' acc' H A M L B. unfold read_row in H.
  destruct (r_hi r <? r_lo r); [discriminate|].
  destruct (match maps with [] => false | p :: _ => r_lo r <=? g2 p end); [discriminate|].
  destruct (add_mapping (r_map r) 0 pos acc) as [[[p a] n]|] eqn:E; [|discriminate]. apply add_mapping_bytes in E; [|exact A].
  destruct (_ && _ && _ && _); [discriminate|].
  pose proof (flag_of_byte (r_status r)) as FB. destruct maps as [|x xs].
  - injection H as <- <- _ <-. rewrite zlen_nil in L. split; [exact E|]. split; [constructor; [exact FB | constructor]|].
    split; [rewrite zlen_cons, zlen_nil; lia|]. split; [unfold IDNA_MAP_SIZE in *; lia|].
    intros (R1 & R2 & _) _. constructor; [split; assumption | constructor].
  - pose proof (Forall_inv M) as M1. pose proof (Forall_inv_tail M) as M2. destruct (_ && _ && _ && _).
    + injection H as <- <- _ <-. split; [exact E|]. split; [constructor; [exact M1 | exact M2]|].
      rewrite zlen_cons in *. split; [exact L|]. split; [exact B|].
      intros (R1 & R2 & _) P. inversion P as [|? ? P1 P2]; subst. constructor; [split; [apply P1 | exact R2] | exact P2].
    + destruct (IDNA_MAP_SIZE <=? cnt + 1) eqn:T; [discriminate|]. injection H as <- <- _ <-.
      split; [exact E|]. split; [constructor; [exact FB | constructor; assumption]|].
      split; [rewrite zlen_cons; lia|]. apply Z.leb_gt in T. split; [lia|].
      intros (R1 & R2 & _) P. constructor; [split; assumption | exact P].
Qed.
Lemma read_rows_keeps : forall rs maps cnt pos acc maps' gen, read_rows rs maps cnt pos acc = Some (maps', gen) ->
  Forall ubyte acc -> Forall flag_ok maps -> zlen maps = cnt -> 0 <= cnt < IDNA_MAP_SIZE ->
  Forall ubyte gen /\ Forall flag_ok maps' /\ zlen maps' < IDNA_MAP_SIZE /\
  (Forall row_ok rs -> Forall (plane 0x10ffff) maps -> Forall (plane 0x10ffff) maps').
Proof.
  induction rs as [|r rs IH]; intros maps cnt pos acc maps' gen H A M L B; cbn [read_rows] in H.
  - injection H as <- <-. rewrite !rev_append_rev, !app_nil_r. split; [apply Forall_rev; exact A|]. split; [apply Forall_rev; exact M|].
    split; [unfold zlen in *; rewrite rev_length; lia|]. intros _. apply Forall_rev.
  - destruct (read_row r maps cnt pos acc) as [[[[m2 c2] p2] a2]|] eqn:R; [|discriminate].
    destruct (read_row_keeps _ _ _ _ _ _ _ _ _ R A M L B) as (A' & M' & L' & B' & P').
    destruct (IH _ _ _ _ _ _ H A' M' L' B') as (X1 & X2 & X3 & X4). split; [exact X1|]. split; [exact X2|]. split; [exact X3|].
    intros F P. inversion F; subst. apply X4; [assumption | apply P'; assumption].
Qed.

Lemma prefix_bytes : forall fuel s n, Forall ubyte s -> Forall ubyte (cp_stream_prefix fuel s n).
Proof.
  induction fuel as [|fuel IH]; intros s n F; [constructor|]. destruct s as [|b s]; [constructor|]. inversion F; subst.
  cbn [cp_stream_prefix]. destruct (n =? 0); [constructor|]. constructor; [assumption | apply IH; assumption].
Qed.
Lemma skipn_bytes : forall n l, Forall ubyte l -> Forall ubyte (skipn n l).
Proof. induction n; intros l F; [exact F|]. destruct l; [constructor|]. inversion F; subst. cbn [skipn]. auto. Qed.
(** Entries after packing: same range and flags. *)
Definition kept (e e' : gmap) : Prop := g1 e' = g1 e /\ g2 e' = g2 e /\ gflags e' = gflags e.
Lemma compact_keeps : forall gen ms data ms' data', Forall ubyte gen -> compact_loop gen ms data = (ms', data') -> Forall ubyte data ->
  Forall ubyte data' /\ Forall2 kept ms ms'.
Proof.
  intros gen ms data ms' data' G. revert data ms' data'. induction ms as [|m ms IH]; intros data ms' data' H D.
  - cbn [compact_loop] in H. injection H as <- <-. split; [exact D | constructor].
  - rewrite compact_cons in H. destruct (gn m =? 0).
    + destruct (compact_loop gen ms data) as [a b] eqn:E. injection H as <- <-. destruct (IH _ _ _ E D) as (X & Y).
      split; [exact X|]. constructor; [repeat split | exact Y].
    + assert (N : Forall ubyte (needle gen m)) by (apply prefix_bytes, skipn_bytes, G).
      destruct (u8_memmem data (needle gen m)).
      * destruct (compact_loop gen ms data) as [a b] eqn:E. injection H as <- <-. destruct (IH _ _ _ E D) as (X & Y).
        split; [exact X|]. constructor; [repeat split | exact Y].
      * destruct (compact_loop gen ms (data ++ needle gen m)) as [a b] eqn:E. injection H as <- <-.
        destruct (IH _ _ _ E) as (X & Y); [apply Forall_app; split; assumption|].
        split; [exact X|]. constructor; [repeat split | exact Y].
Qed.
Lemma combine_keeps : forall ms combos ms' combos', combine_flags ms combos = Some (ms', combos') -> Forall ubyte combos -> Forall flag_ok ms ->
  Forall ubyte combos' /\ Forall2 kept ms ms'.
Proof.
  induction ms as [|m ms IH]; intros combos ms' combos' H C M; cbn [combine_flags] in H.
  - injection H as <- <-. split; [exact C | constructor].
  - inversion M; subst. destruct (index_of (gflags m) combos 0).
    + destruct (combine_flags ms combos) as [[a b]|] eqn:E; [|discriminate]. injection H as <- <-.
      destruct (IH _ _ _ E) as (X & Y); [assumption..|]. split; [exact X|]. constructor; [repeat split | exact Y].
    + destruct (8 <=? zlen combos); [discriminate|].
      destruct (combine_flags ms (combos ++ [gflags m])) as [[a b]|] eqn:E; [|discriminate]. injection H as <- <-.
      destruct (IH _ _ _ E) as (X & Y); [apply Forall_app; split; [assumption | constructor; [assumption | constructor]] | assumption|].
      split; [exact X|]. constructor; [repeat split | exact Y].
Qed.
Lemma kept_length : forall ms ms', Forall2 kept ms ms' -> length ms = length ms'.
Proof. induction 1; cbn [length]; congruence. Qed.
Lemma kept_Forall : forall (P : gmap -> Prop) ms ms', (forall e e', kept e e' -> P e -> P e') -> Forall2 kept ms ms' -> Forall P ms -> Forall P ms'.
Proof. intros P ms ms' H F. induction F; intros X; [constructor|]. inversion X; subst. constructor; [eapply H; eassumption | auto]. Qed.

Lemma prepared : forall rows maps gen maps1 data maps2 combos, read_rows rows [] 0 0 [] = Some (maps, gen) ->
  compact maps gen = (maps1, data) -> combine_flags maps1 [] = Some (maps2, combos) ->
  Forall ubyte data /\ Forall ubyte combos /\ zlen maps2 < IDNA_MAP_SIZE /\ (Forall row_ok rows -> Forall (plane 0x10ffff) maps2).
Proof.
  intros rows maps gen maps1 data maps2 combos R C N.
  destruct (read_rows_keeps _ _ _ _ _ _ _ R) as (G & M & L & P); [constructor | constructor | reflexivity | cbv; split; congruence |].
  unfold compact in C. destruct (compact_loop gen (qsort by_maplen maps) []) as [ms d] eqn:E. injection C as <- <-.
  apply compact_keeps in E; [|exact G|constructor]. destruct E as (D & K).
  pose proof (qsort_perm by_maplen maps) as P1. pose proof (qsort_perm by_cp ms) as P2.
  assert (T : forall Q : gmap -> Prop, (forall e e', kept e e' -> Q e -> Q e') -> Forall Q maps -> Forall Q (qsort by_cp ms)).
  { intros Q HQ F. eapply Permutation_Forall; [apply Permutation_sym; exact P2|]. eapply kept_Forall; [exact HQ | exact K|].
    eapply Permutation_Forall; [apply Permutation_sym; exact P1 | exact F]. }
  apply combine_keeps in N; [|constructor|].
  2: { apply T; [|exact M]. intros e e' (_ & _ & X). unfold flag_ok. rewrite X. auto. }
  destruct N as (X & Y). split; [exact D|]. split; [exact X|]. split.
  - apply kept_length in K. apply kept_length in Y. apply Permutation_length in P1. apply Permutation_length in P2.
    unfold zlen in *. lia.
  - intros F. eapply kept_Forall; [|exact Y|]; [intros e e' (U & V & _); unfold plane; rewrite U, V; auto|].
    apply T; [intros e e' (U & V & _); unfold plane; rewrite U, V; auto|]. apply P; [exact F | constructor].
Qed.

(** Sizes that fit. *)
Lemma entries_bound : forall min max ms k, Forall (plane 0x10ffff) ms -> map_entries min max ms k <= k + 17 * zlen ms.
Proof.
  induction ms as [|m ms IH]; intros k F; cbn [map_entries]; [rewrite zlen_nil; lia|]. inversion F as [|? ? (A & B) F']; subst. rewrite zlen_cons.
  assert (Z.of_nat (S (Z.to_nat ((g2 m - g1 m) / 0x10000))) <= 17).
  { assert ((g2 m - g1 m) / 0x10000 < 17) by (apply Z.div_lt_upper_bound; lia). lia. }
  destruct (g1 m <? min); [specialize (IH k F'); lia|]. destruct (max <? g1 m); [unfold zlen; lia|].
  specialize (IH (k + Z.of_nat (S (Z.to_nat ((g2 m - g1 m) / 0x10000)))) F'). lia.
Qed.
Lemma size_fits : forall min max ms, Forall (plane 0x10ffff) ms -> zlen ms < IDNA_MAP_SIZE -> exists n, map_size min max ms = Some n.
Proof.
  intros min max ms F L. unfold IDNA_MAP_SIZE in L. pose proof (entries_bound min max ms 0 F) as B. unfold map_size.
  set (e := map_entries min max ms 0) in *. destruct (0x7fffffff <? _) eqn:E; [|eexists; reflexivity]. exfalso.
  destruct (max =? 0xff); [|destruct (max =? 0xffff); [|destruct (max =? 0xffffff)] ]; lia.
Qed.

(** * The rows of DerivedNormalizationProps.txt *)
Lemma scan_hex_range : forall s v r, scan_hex s = Ok (Some (v, r)) -> 0 <= v < 2 ^ 32.
Proof.
  assert (D : forall s v, 0 <= v -> 0 <= fst (hex_digits s v)).
  { induction s as [|c s IH]; intros v H; [exact H|]. cbn [hex_digits]. destruct (hex_digit c) eqn:E; [|exact H].
    apply IH. unfold hex_digit in E. repeat match type of E with context [if ?b then _ else _] => destruct b eqn:? end; try discriminate; injection E as <-; lia. }
  intros s v r. unfold scan_hex.
  destruct (match skip_space s with [] => (false, skip_space s) | c :: r0 => if c =? 45 then (true, r0) else if c =? 43 then (false, r0) else (false, skip_space s) end) as [neg s1].
  generalize (match s1 with a :: b :: r0 => if (a =? 48) && ((b =? 120) || (b =? 88)) then r0 else s1 | _ => s1 end). intros s2.
  destruct s2 as [|c s2]; [discriminate|]. destruct (hex_digit c); [|discriminate].
  destruct (hex_digits (c :: s2) 0) as [w r'] eqn:E. pose proof (D (c :: s2) 0 ltac:(lia)) as P. rewrite E in P. cbn [fst] in P.
  destruct (0xffffffff <? w) eqn:L; [discriminate|]. intros H. injection H as <- _. destruct neg; [|lia].
  unfold u32. pose proof (Z.mod_pos_bound (- w) (2 ^ 32) eq_refl). exact H.
Qed.
Lemma scan_range_range : forall s lo hi, scan_range s = Ok (lo, hi) -> 0 <= lo < 2 ^ 32 /\ 0 <= hi < 2 ^ 32.
Proof.
  intros s lo hi. unfold scan_range. destruct (scan_hex s) as [[[a r]|]| | |] eqn:E; try discriminate. cbn [bind].
  apply scan_hex_range in E.
  assert (K : Ok (a, a) = Ok (lo, hi) -> 0 <= lo < 2 ^ 32 /\ 0 <= hi < 2 ^ 32) by (intros H; injection H as <- <-; auto).
  intros H. destruct r as [|c r1]; [auto|]. destruct (Z.eq_dec c 46) as [->|Hc].
  - destruct r1 as [|c2 r2]; [auto|]. destruct (Z.eq_dec c2 46) as [->|Hc2].
    + destruct (scan_hex r2) as [[[b r']|]| | |] eqn:E2; try discriminate; cbn [bind] in H; [|auto].
      apply scan_hex_range in E2. injection H as <- <-. auto.
    + apply K. rewrite <- H. destruct c2 as [|p|p]; try reflexivity. do 6 (destruct p as [p|p|]; try reflexivity). congruence.
  - apply K. rewrite <- H. destruct c as [|p|p]; try reflexivity. do 6 (destruct p as [p|p|]; try reflexivity). congruence.
Qed.
Definition qrow_u32 (r : qrow) : Prop := 0 <= q_lo r < 2 ^ 32 /\ 0 <= q_hi r < 2 ^ 32.
Lemma scan_nfcqc_range : forall l r, scan_nfcqc l = Ok (Some r) -> qrow_u32 r.
Proof.
  intros l r. unfold scan_nfcqc. destruct (next_field l) as [c l1]. destruct (next_field l1) as [t l2]. destruct (next_field l2) as [k l3].
  destruct t as [t|]; [|discriminate]. destruct (negb (same t (text "NFC_QC"))); [discriminate|]. destruct c as [c|]; [|discriminate].
  destruct (scan_range c) as [[lo hi]| | |] eqn:E; try discriminate. cbn [bind]. apply scan_range_range in E.
  destruct k as [k|]; [|discriminate].
  assert (X : forall q, Ok (Some (Qrow lo hi q)) = Ok (Some r) -> qrow_u32 r) by (intros q H; injection H as <-; exact E).
  intros H. destruct k as [|x k]; [discriminate|]. destruct x as [|p|p]; try discriminate.
  do 7 (destruct p as [p|p|]; try discriminate); eauto.
Qed.
Lemma scan_lines_all : forall {A} (scan : list Z -> out (option A)) (P : A -> Prop), (forall l a, scan l = Ok (Some a) -> P a) ->
  forall ls rows, scan_lines scan ls = Ok rows -> Forall P rows.
Proof.
  intros A scan P H. induction ls as [|l ls IH]; intros rows E; cbn [scan_lines] in E; [injection E as <-; constructor|].
  destruct (skip_space l) as [|c l']; [auto|]. destruct (c =? 35); [auto|].
  destruct (scan (c :: l')) as [x| | |] eqn:S; try discriminate. cbn [bind] in E.
  destruct (scan_lines scan ls) as [xs| | |] eqn:R; try discriminate. cbn [bind] in E. injection E as <-.
  destruct x; [constructor; [eauto | auto] | auto].
Qed.
Lemma scan_qrows : forall t qs, scan_file scan_nfcqc t = Ok qs -> Forall qrow_u32 qs.
Proof.
  intros t qs. unfold scan_file. destruct (buffers (length t) t) as [ls| | |]; try discriminate. cbn [bind].
  apply scan_lines_all. exact scan_nfcqc_range.
Qed.
Lemma read_nfcqc_fits : forall qs cnt l, read_nfcqc qs cnt = Some l -> Forall qrow_u32 qs -> Forall q_fits l.
Proof.
  induction qs as [|q qs IH]; intros cnt l H F; cbn [read_nfcqc] in H; [injection H as <-; constructor|].
  inversion F as [|? ? F1 F2]; subst. destruct (q_hi q <? q_lo q); [discriminate|]. destruct (NFCQC_SIZE <=? cnt + 1); [discriminate|].
  destruct (read_nfcqc qs (cnt + 1)) as [l'|] eqn:E; [|discriminate]. injection H as <-. constructor; [|eauto].
  destruct F1. repeat split; cbn [nq1 nq2 nq_check]; try lia; destruct (q_qc q); cbn; lia.
Qed.

(** * gentr46map *)
Lemma map_file : forall rows qs s, Forall qrow_u32 qs -> gentr46map_file rows qs = Some s ->
  exists T, gentr46map rows qs = Some T /\ tr46map_data_c s = Some T.
Proof.
  intros rows qs s F H. unfold gentr46map_file in H. unfold gentr46map.
  destruct (read_rows rows [] 0 0 []) as [[maps gen]|] eqn:R; [|discriminate].
  destruct (compact maps gen) as [maps1 data] eqn:C.
  destruct (combine_flags maps1 []) as [[maps2 combos]|] eqn:N; [|discriminate].
  destruct (read_nfcqc qs 0) as [q|] eqn:QQ; [|discriminate].
  destruct (prepared _ _ _ _ _ _ _ R C N) as (D & X & _).
  eexists. split; [reflexivity|]. apply tr46_file; try assumption.
  eapply Permutation_Forall; [apply Permutation_sym, qsort_perm|]. eapply read_nfcqc_fits; eassumption.
Qed.
Lemma map_file_total : forall rows qs T, Forall row_ok rows -> gentr46map rows qs = Some T -> exists s, gentr46map_file rows qs = Some s.
Proof.
  intros rows qs T F H. unfold gentr46map_file. unfold gentr46map in H.
  destruct (read_rows rows [] 0 0 []) as [[maps gen]|] eqn:R; [|discriminate].
  destruct (compact maps gen) as [maps1 data] eqn:C.
  destruct (combine_flags maps1 []) as [[maps2 combos]|] eqn:N; [|discriminate].
  destruct (read_nfcqc qs 0) as [q|] eqn:QQ; [|discriminate].
  destruct (prepared _ _ _ _ _ _ _ R C N) as (_ & _ & L & P). specialize (P F). unfold tr46map_data.
  destruct (size_fits 0 0xff maps2 P L) as [n8 ->]. destruct (size_fits 0x100 0xffff maps2 P L) as [n16 ->].
  destruct (size_fits 0x10000 0xffffff maps2 P L) as [n24 ->]. eexists. reflexivity.
Qed.
Lemma run_tr46 : forall t p s, gentr46map_run t p = Ok s -> exists T, gentr46map_text t p = Ok T /\ tr46map_data_c s = Some T.
Proof.
  intros t p s. unfold gentr46map_run, gentr46map_text.
  destruct (scan_file scan_idna t) as [rows| | |]; try discriminate. cbn [bind].
  destruct (scan_file scan_nfcqc p) as [qs| | |] eqn:Q; try discriminate. cbn [bind]. apply scan_qrows in Q.
  destruct (gentr46map_file rows qs) as [s'|] eqn:E; [|discriminate]. intros H. injection H as <-.
  destruct (map_file _ _ _ Q E) as (T & -> & R). exists T. split; [reflexivity | exact R].
Qed.
Lemma run_tr46_total : forall t p rows T, scan_file scan_idna t = Ok rows -> Forall row_ok rows -> gentr46map_text t p = Ok T ->
  exists s, gentr46map_run t p = Ok s /\ tr46map_data_c s = Some T.
Proof.
  intros t p rows T R F H. assert (exists s, gentr46map_run t p = Ok s) as [s E].
  { unfold gentr46map_run. unfold gentr46map_text in H. rewrite R in *. cbn [bind] in *.
    destruct (scan_file scan_nfcqc p) as [qs| | |] eqn:Q; try discriminate. cbn [bind] in *.
    destruct (gentr46map rows qs) as [T'|] eqn:G; [|discriminate].
    destruct (map_file_total _ _ _ F G) as [s ->]. exists s. reflexivity. }
  exists s. split; [exact E|]. destruct (run_tr46 _ _ _ E) as (T' & X & Y). congruence.
Qed.
