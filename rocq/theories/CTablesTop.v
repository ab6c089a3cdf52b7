(** The text of lib/tables.c and lib/tr46map.c with the arrays of the library. *)
From Coq Require Import String.
From Verif Require Import Base PunyBase DataTypes Bsearch BsearchProofs Tables TablesProofs SpecTables Gentr46 Gentr46Proofs Tr46Tables Tr46Map Tr46Valid BaseTop CLang CLogic CLeaf CDecode CEncode CBidi CTables SpecCPuny SpecCTables CSearch CTablesProofs CMap CMapTop CMapData.
Local Open Scope string_scope.
Local Open Scope list_scope.
Local Open Scope Z_scope.

Lemma fill_members : forall c q m, fill_map c q = Ok m -> 0 <= m_n m < 32 /\ 0 <= m_off m < 16384 /\ 0 <= m_idx m < 8.
Proof.
  intros c q m F.
  assert (V : forall a b r, fill_value a b r = Ok m -> 0 <= m_n m < 32 /\ 0 <= m_off m < 16384 /\ 0 <= m_idx m < 8).
  { intros a b r H. destruct r as [|x [|y [|z r]]]; try discriminate H. cbn [fill_value] in H. apply (f_equal (fun o => match o with Ok x => x | _ => m end)) in H. cbv beta iota zeta in H. subst m. cbn [m_n m_off m_idx].
    split; [apply (land_mask _ 5); lia|]. split; [apply (land_mask _ 14); lia|apply (land_mask _ 3); lia]. }
  unfold fill_map in F. destruct (c <=? 255); [|destruct (c <=? 65535)].
  - destruct q as [|p0 [|p1 r]]; try discriminate F. exact (V _ _ _ F).
  - destruct q as [|p0 [|p1 [|p2 [|p3 r]]]]; try discriminate F. exact (V _ _ _ F).
  - destruct q as [|p0 [|p1 [|p2 [|p3 [|p4 r]]]]]; try discriminate F. exact (V _ _ _ F).
Qed.

Section Tables.
  Variable T : tr46_tables.
  Variables r8 r16 r24 : list idnamap.
  Variables n8 n16 n24 : nat.
  Hypothesis R8 : r8 = recs n8 0 5 (t_map8 T).
  Hypothesis R16 : r16 = recs n16 0x100 7 (t_map16 T).
  Hypothesis R24 : r24 = recs n24 0x10000 8 (t_map24 T).
  Hypothesis L8 : zlen (t_map8 T) = Z.of_nat n8 * 5.
  Hypothesis L16 : zlen (t_map16 T) = Z.of_nat n16 * 7.
  Hypothesis L24 : zlen (t_map24 T) = Z.of_nat n24 * 8.
  Hypothesis N8 : length r8 = n8.
  Hypothesis N16 : length r16 = n16.
  Hypothesis N24 : length r24 = n24.
  Hypothesis S8 : sorted_from m_cp1 m_hi 0 r8 = true.
  Hypothesis S16 : sorted_from m_cp1 m_hi 0x100 r16 = true.
  Hypothesis S24 : sorted_from m_cp1 m_hi 0x10000 r24 = true.
  Hypothesis F8 : forall m, In m r8 -> m_hi m <= 0xff.
  Hypothesis F16 : forall m, In m r16 -> m_hi m <= 0xffff.
  Hypothesis F24 : forall m, In m r24 -> m_hi m <= 0x10ffff.
  Hypothesis B8 : Forall (fun b => 0 <= b <= 255) (t_map8 T).
  Hypothesis B16 : Forall (fun b => 0 <= b <= 255) (t_map16 T).
  Hypothesis B24 : Forall (fun b => 0 <= b <= 255) (t_map24 T).
  Hypothesis T8 : zlen (t_map8 T) < top.
  Hypothesis T16 : zlen (t_map16 T) < top.
  Hypothesis T24 : zlen (t_map24 T) < top.
  Variables (bs : bsearch_fun) (ts : Z).
  Hypothesis C11 : c11_bsearch bs.
  Definition the_recs (c : Z) : list idnamap := if c <=? 255 then r8 else if c <=? 65535 then r16 else r24.
  Lemma rows_fill : forall c c0 n size tbl R i m, class c0 = class c -> R = recs n c0 (Z.to_nat size) tbl -> 0 < size -> nth_error R (Z.to_nat i) = Some m -> 0 <= i -> fill_map c (skipn (Z.to_nat (i * size)) tbl) = Ok m.
  Proof.
    intros c c0 n size tbl R i m CL E S NE I0. subst R. apply recs_nth in NE. rewrite (fill_map_class c c0) by congruence. replace (Z.to_nat (i * size)) with (Z.to_nat i * Z.to_nat size)%nat by (rewrite <- Z2Nat.inj_mul by lia; reflexivity). exact NE.
  Qed.
  Lemma lookup_text : forall c a b d e f, 0 <= c < two32 ->
    match (if c <=? 0xffffff then find (covers m_cp1 m_hi c) (the_recs c) else None) with
    | Some m => t_returns bs ts (c_get_idna_map (zlen (t_map8 T)) (zlen (t_map16 T)) (zlen (t_map24 T))) [(U32, c)] (gtabs (t_map8 T) (t_map16 T) (t_map24 T) ++ map_arrays a b d e f) 0
        (gtabs (t_map8 T) (t_map16 T) (t_map24 T) ++ map_arrays (Some (m_cp1 m)) (Some (m_range m)) (Some (m_n m)) (Some (m_off m)) (Some (m_idx m)))
    | None => t_returns bs ts (c_get_idna_map (zlen (t_map8 T)) (zlen (t_map16 T)) (zlen (t_map24 T))) [(U32, c)] (gtabs (t_map8 T) (t_map16 T) (t_map24 T) ++ map_arrays a b d e f) (-1)
        (gtabs (t_map8 T) (t_map16 T) (t_map24 T) ++ map_arrays (Some 0) (Some 0) (Some 0) (Some 0) (Some 0))
    end.
  Proof.
    intros c a b d e f C. apply (get_text bs ts C11 (t_map8 T) (t_map16 T) (t_map24 T) _ _ _ eq_refl eq_refl eq_refl c a b d e f C). intros LE. unfold the_recs, table_ok.
    assert (CL : class c = if c <=? 255 then 0 else if c <=? 65535 then 1 else 2) by reflexivity. unfold two32 in C.
    destruct (c <=? 255) eqn:Q1; [|destruct (c <=? 65535) eqn:Q2].
    - split; [exact B8|]. split; [exact T8|]. split; [rewrite L8, Z.div_mul by lia; unfold zlen; now rewrite N8|]. split; [eauto|]. intros i m. apply (rows_fill c 0 n8 5); auto; lia.
    - split; [exact B16|]. split; [exact T16|]. split; [rewrite L16, Z.div_mul by lia; unfold zlen; now rewrite N16|]. split; [eauto|]. intros i m. apply (rows_fill c 0x100 n16 7); auto; lia.
    - split; [exact B24|]. split; [exact T24|]. split; [rewrite L24, Z.div_mul by lia; unfold zlen; now rewrite N24|]. split; [eauto|]. intros i m. apply (rows_fill c 0x10000 n24 8); auto; lia.
  Qed.
  Lemma lookup_model : forall c m rc a b d e f, 0 <= c < two32 -> get_idna_map_in T c = Ok (m, rc) ->
    t_returns bs ts (c_get_idna_map (zlen (t_map8 T)) (zlen (t_map16 T)) (zlen (t_map24 T))) [(U32, c)] (gtabs (t_map8 T) (t_map16 T) (t_map24 T) ++ map_arrays a b d e f) rc
        (gtabs (t_map8 T) (t_map16 T) (t_map24 T) ++ map_arrays (Some (m_cp1 m)) (Some (m_range m)) (Some (m_n m)) (Some (m_off m)) (Some (m_idx m))) /\
    0 <= m_n m < 32 /\ 0 <= m_off m < 16384 /\ 0 <= m_idx m < 8.
  Proof.
    intros c m rc a b d e f C G. pose proof (lookup_text c a b d e f C) as X. destruct (c <=? 16777215) eqn:Q.
    - rewrite (get_idna_map_find T r8 r16 r24 n8 n16 n24) in G by (auto; lia). fold (the_recs c) in G. destruct (find (covers m_cp1 m_hi c) (the_recs c)) as [m'|] eqn:FD.
      + assert (m' = m /\ rc = 0) as (-> & ->) by (split; congruence). split; [exact X|]. apply find_some in FD. destruct FD as (I & _). unfold the_recs in I.
        assert (Y : exists i c0 size tbl, fill_map c0 (skipn (i * size) tbl) = Ok m). { destruct (c <=? 255); [rewrite R8 in I|destruct (c <=? 65535); [rewrite R16 in I|rewrite R24 in I]]; apply In_nth_error in I; destruct I as (i & I); apply recs_nth in I; eauto. }
        destruct Y as (i & c0 & size & tbl & Y). exact (fill_members _ _ _ Y).
      + assert (m = IdnaMap 0 0 0 0 0 /\ rc = -1) as (-> & ->) by (split; congruence). split; [exact X|]. cbn [m_n m_off m_idx]. lia.
    - unfold get_idna_map_in in G. assert (E1 : (c <=? 255) = false) by lia. assert (E2 : (c <=? 65535) = false) by lia. rewrite E1, E2, Q in G. assert (m = IdnaMap 0 0 0 0 0 /\ rc = -1) as (-> & ->) by (split; congruence). split; [exact X|]. cbn [m_n m_off m_idx]. lia.
  Qed.
End Tables.

Definition byte_list (l : list Z) : bool := forallb (fun b => (0 <=? b) && (b <=? 255)) l.
Lemma byte_list_ok : forall l, byte_list l = true -> Forall (fun b => 0 <= b <= 255) l.
Proof. intros l H. rewrite Forall_forall. unfold byte_list in H. rewrite forallb_forall in H. intros x I. specialize (H x I). lia. Qed.
Lemma bytes8 : byte_list (t_map8 tr46_data) = true. Proof. vm_cast_no_check (eq_refl true). Qed.
Lemma bytes16 : byte_list (t_map16 tr46_data) = true. Proof. vm_cast_no_check (eq_refl true). Qed.
Lemma bytes24 : byte_list (t_map24 tr46_data) = true. Proof. vm_cast_no_check (eq_refl true). Qed.
Lemma bytes_data : byte_list (t_mapdata tr46_data) = true. Proof. vm_cast_no_check (eq_refl true). Qed.
Lemma flags_small : forallb (fun f => (0 <=? f) && (f <? two32)) (t_flags tr46_data) = true. Proof. vm_cast_no_check (eq_refl true). Qed.
Lemma num_small : (Z.of_nat num8 <? 1000000) && (Z.of_nat num16 <? 1000000) && (Z.of_nat num24 <? 1000000) && (mapdata_len <? 1000000) = true. Proof. vm_cast_no_check (eq_refl true). Qed.
Lemma small8 : zlen (t_map8 tr46_data) < top. Proof. rewrite (proj1 (eqb_len _ _ _ _ len8)). pose proof num_small. unfold top. lia. Qed.
Lemma small16 : zlen (t_map16 tr46_data) < top. Proof. rewrite (proj1 (eqb_len _ _ _ _ len16)). pose proof num_small. unfold top. lia. Qed.
Lemma small24 : zlen (t_map24 tr46_data) < top. Proof. rewrite (proj1 (eqb_len _ _ _ _ len24)). pose proof num_small. unfold top. lia. Qed.
Lemma small_data : zlen (t_mapdata tr46_data) < top. Proof. rewrite (proj1 (Z.eqb_eq _ _) lend). pose proof num_small. unfold top. lia. Qed.

Definition members_map (m : idnamap) : members_of := Members (Some (m_cp1 m)) (Some (m_range m)) (Some (m_n m)) (Some (m_off m)) (Some (m_idx m)).
Lemma returns_fun : forall (f : nat -> res (Z * list (string * carr))) a b, returns f a -> returns f b -> a = b.
Proof. intros f a b (N & A) (M & B). specialize (A (Nat.max N M) ltac:(lia)). specialize (B (Nat.max N M) ltac:(lia)). congruence. Qed.
Lemma property_find : forall t b c, sorted_from ie_start ie_end b t = true -> property_in t c = Ok (match find (covers ie_start ie_end c) t with Some e => ie_state e | None => UNASSIGNED end).
Proof.
  intros t b c S. unfold property_in. set (cmp := fun i => _).
  assert (Hc : forall i x, nth_error t (Z.to_nat i) = Some x -> 0 <= i -> cmp i = Ok (if c <? ie_start x then -1 else if ie_end x <? c then 1 else 0)).
  { intros i x E Hi. unfold cmp. rewrite (elem_ok _ _ _ E Hi). reflexivity. }
  pose proof (bsearch_intervals ie_start ie_end t b c cmp S Hc) as B. destruct (find (covers ie_start ie_end c) t) as [e|].
  - destruct B as (i & Hi & B & E). rewrite B. cbn [bind]. rewrite (elem_ok _ _ _ E Hi). reflexivity.
  - rewrite B. reflexivity.
Qed.
Lemma nfcqc_find : forall T b c, sorted_from nq1 nq2 b (t_nfcqc T) = true -> get_nfcqc_in T c = Ok (find (covers nq1 nq2 c) (t_nfcqc T)).
Proof.
  intros T b c S. unfold get_nfcqc_in. set (t := t_nfcqc T) in *. set (cmp := fun i => _).
  assert (Hc : forall i x, nth_error t (Z.to_nat i) = Some x -> 0 <= i -> cmp i = Ok (if c <? nq1 x then -1 else if nq2 x <? c then 1 else 0)).
  { intros i x E Hi. unfold cmp. rewrite (elem_ok _ _ _ E Hi). reflexivity. }
  pose proof (bsearch_intervals nq1 nq2 t b c cmp S Hc) as B. destruct (find (covers nq1 nq2 c) t) as [e|].
  - destruct B as (i & Hi & B & E). rewrite B. cbn [bind]. rewrite (elem_ok _ _ _ E Hi). reflexivity.
  - rewrite B. reflexivity.
Qed.
Lemma table_sorted : sorted_from ie_start ie_end 0 idna_table = true.
Proof. rewrite idna_table_gendata. apply gendata_sorted. exact csv_sorted. Qed.
Lemma prop_num_eqb : forall p q, (prop_num p =? prop_num q) = prop_eqb p q. Proof. intros [] []; reflexivity. Qed.
Lemma nfcqc_sorted : sorted_from nq1 nq2 0 (t_nfcqc tr46_data) = true.
Proof. pose proof nfcqc_complete as K. apply andb_true_iff in K. exact (proj2 K). Qed.
#[local] Transparent property get_nfcqc_map get_idna_map get_map_data map_is.
Lemma table_find : forall c, csv_property c = match find (covers ie_start ie_end c) idna_table with Some e => ie_state e | None => UNASSIGNED end.
Proof. intros c. pose proof (property_spec c) as X. unfold property in X. rewrite (property_find idna_table 0 c table_sorted) in X. congruence. Qed.

Section Lib.
  Variable bs : bsearch_fun.
  Hypothesis C11 : c11_bsearch bs.
  Lemma text_property : forall c, 0 <= c < two32 -> returns_property bs c (prop_num (csv_property c)).
  Proof.
    intros c C. rewrite table_find. unfold returns_property. generalize table_sorted. generalize idna_table. intros t S. exists O. intros n _.
    destruct (property_exec bs (zlen t) C11 t 0 c S eq_refl 1%nat n) as (st & A & X).
    change (run (table_program bs (zlen t)) (c_property (zlen t)) 1 n [(U32, c)] (idna_arrays t)) with
      (match exec (types (table_program bs (zlen t))) (calls (table_program bs (zlen t)) 1) n (f_body (c_property (zlen t))) (pstate t c None None) with Ret v st => Val (cast (fst v) I32 (snd v), arrs st) | Out => Fuel | _ => UB end).
    rewrite X, A. reflexivity.
  Qed.
  Lemma text_class : forall p c, 0 <= c < two32 -> returns_class bs p c (if prop_eqb (csv_property c) p then 1 else 0).
  Proof. intros p c C. rewrite table_find, <- prop_num_eqb. exact (is_exec bs (zlen idna_table) C11 idna_table 0 c p table_sorted eq_refl C). Qed.
  Lemma text_map : forall c m rc v, 0 <= c < two32 -> get_idna_map c = Ok (m, rc) -> returns_map bs c v rc (members_map m) /\ 0 <= m_n m < 32 /\ 0 <= m_off m < 16384 /\ 0 <= m_idx m < 8.
  Proof.
    intros c m rc [a b d e f] C G. exact (lookup_model tr46_data recs8 recs16 recs24 num8 num16 num24
    recs8_eq recs16_eq recs24_eq (proj1 (eqb_len _ _ _ _ len8)) (proj1 (eqb_len _ _ _ _ len16)) (proj1 (eqb_len _ _ _ _ len24))
    (proj2 (eqb_len _ _ _ _ len8)) (proj2 (eqb_len _ _ _ _ len16)) (proj2 (eqb_len _ _ _ _ len24))
    (proj1 (and2 _ _ sorted8)) (proj1 (and2 _ _ sorted16)) (proj1 (and2 _ _ sorted24))
    (forallb_le _ _ (proj2 (and2 _ _ sorted8))) (forallb_le _ _ (proj2 (and2 _ _ sorted16)))
    (forallb_le _ _ (proj2 (and2 _ _ sorted24))) (byte_list_ok _ bytes8) (byte_list_ok _ bytes16) (byte_list_ok _ bytes24) small8 small16 small24 bs (zlen idna_table) C11 c m rc a b d e f C G).
  Qed.
  Lemma text_flag : forall m flags b, map_is m flags = Ok b -> 0 <= flags < two32 -> returns_flag bs (members_map m) flags (if b then 1 else 0).
  Proof.
    intros m flags b G F. unfold map_is, map_is_in in G. destruct (rd (t_flags tr46_data) (m_idx m)) as [v| | |] eqn:R; try discriminate G. cbn [bind] in G. assert (b = (Z.land v flags =? flags)) as -> by congruence.
    apply (map_is_exec bs (zlen idna_table) m flags (t_flags tr46_data) v R); [|exact F]. pose proof flags_small as K. rewrite forallb_forall in K. assert (I : In v (t_flags tr46_data)). { unfold rd in R. destruct (m_idx m <? 0); [discriminate R|]. destruct (nth_error (t_flags tr46_data) (Z.to_nat (m_idx m))) eqn:N; [|discriminate R]. apply nth_error_In in N. congruence. }
    specialize (K v I). unfold two32 in *. lia.
  Qed.
  Lemma text_data : forall m l dst, get_map_data m = Ok l -> 0 <= m_n m < 32 -> 0 <= m_off m < 16384 -> m_n m <= zlen dst -> returns_data bs (members_map m) dst (m_n m) (map Some l ++ skipn (Z.to_nat (m_n m)) dst).
  Proof.
    intros m l dst G N O D. unfold get_map_data, get_map_data_in in G. destruct (zlen (t_mapdata tr46_data) <? m_off m); [discriminate G|].
    exact (data_runs bs (zlen idna_table) (m_n m) (m_off m) (t_mapdata tr46_data) (byte_list_ok _ bytes_data) small_data l dst G O N D).
  Qed.
  Lemma text_nfcqc : forall ch c, exists i, returns_nfcqc bs ch c i /\ match get_nfcqc_map c with Ok (Some q) => 0 <= i /\ nth_error (t_nfcqc tr46_data) (Z.to_nat i) = Some q /\ nq1 q <= c <= nq2 q | Ok None => i = -1 | _ => False end.
  Proof.
    intros ch c. unfold get_nfcqc_map. rewrite (nfcqc_find tr46_data 0 c nfcqc_sorted). destruct (nfcqc_exec bs (zlen idna_table) C11 ch (t_nfcqc tr46_data) 0 c nfcqc_sorted) as (i & X & Y). exists i. split; [exact X|].
    destruct (find (covers nq1 nq2 c) (t_nfcqc tr46_data)) as [q|] eqn:F; [|exact Y]. destruct Y as (Y1 & Y2). split; [lia|]. split; [exact Y2|]. apply find_some in F. destruct F as (_ & F). apply covers_iff in F. exact F.
  Qed.
End Lib.
