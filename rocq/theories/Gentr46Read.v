(** gentr46map.c: reading the rows, removing duplicate mappings, numbering the
    flag combinations; what the entries represent at each step. *)
From Coq Require Import Sorting.Permutation Sorting.Sorted.
From Verif Require Import Base PunyBase DataTypes Bsearch BsearchProofs Tables TablesProofs Gentr46 Tr46Map SpecGen Gentr46Proofs.

(** The data an entry may have: at most 20 code points of 32 bits. *)
Definition map_ok (m : list Z) : Prop := Forall cp32 m /\ zlen m <= 20.

(** Entry [e] with the mapping bytes [gen] stands for status [st], mapping [m]. *)
Record repr (gen : list Z) (e : gmap) (st : status) (m : list Z) : Prop := Repr {
  re_flags : gflags e = flag_of st;
  re_n : gn e = zlen m;
  re_off : 0 <= goff e <= zlen gen /\ goff e < 16384;
  re_nil : m = [] -> goff e = 0;
  re_data : exists t, skipn (Z.to_nat (goff e)) gen = stream m ++ t }.

Definition inside (c : Z) (e : gmap) : Prop := g1 e <= c <= g2 e.

Lemma repr_ext : forall gen ext e st m, repr gen e st m -> repr (gen ++ ext) e st m.
Proof.
  intros gen ext e st m [F N O Z0 (t & D)]. split; auto.
  - rewrite zlen_app. pose proof (zlen_nonneg _ ext). lia.
  - exists (t ++ ext). rewrite skipn_app, D. replace (Z.to_nat (goff e) - length gen)%nat with 0%nat by (unfold zlen in O; lia).
    cbn [skipn]. now rewrite app_assoc.
Qed.

(** Bytes of an entry's mapping. *)
Definition needle (gen : list Z) (e : gmap) : list Z := cp_stream_prefix 200 (skipn (Z.to_nat (goff e)) gen) (gn e).
Lemma needle_repr : forall gen e st m, repr gen e st m -> map_ok m -> needle gen e = stream m.
Proof.
  intros gen e st m [F N O Z0 (t & D)] (C & L). unfold needle. rewrite D, N. apply prefix_spec; auto.
  pose proof (stream_len m C). unfold zlen in *. lia.
Qed.
Fixpoint total (gen : list Z) (es : list gmap) : Z :=
  match es with [] => 0 | e :: r => zlen (needle gen e) + total gen r end.
Lemma total_cons : forall gen e r, total gen (e :: r) = zlen (needle gen e) + total gen r.
Proof. reflexivity. Qed.
Lemma needle_fields : forall gen e e', goff e = goff e' -> gn e = gn e' -> needle gen e = needle gen e'.
Proof. intros gen e e' H H'. unfold needle. rewrite H, H'. reflexivity. Qed.
Lemma total_nonneg : forall gen es, 0 <= total gen es.
Proof. induction es as [|e es IH]; cbn [total]; [lia|]. pose proof (zlen_nonneg _ (needle gen e)). lia. Qed.
Lemma total_app : forall gen a b, total gen (a ++ b) = total gen a + total gen b.
Proof. induction a as [|e a IH]; intros b; cbn [total app]; [lia|]. rewrite IH. lia. Qed.
Lemma total_perm : forall gen l l', Permutation l l' -> total gen l = total gen l'.
Proof. induction 1; cbn [total]; lia. Qed.

Definition represented (gen : list Z) (e : gmap) : Prop := exists st m, repr gen e st m /\ map_ok m.
Lemma represented_ext : forall gen ext e, represented gen e -> represented (gen ++ ext) e.
Proof. intros gen ext e (st & m & R & M). exists st, m. split; auto using repr_ext. Qed.
Lemma total_ext : forall gen ext es, Forall (represented gen) es -> total (gen ++ ext) es = total gen es.
Proof.
  induction 1 as [|e es (st & m & R & M) F IH]; [reflexivity|]. cbn [total].
  rewrite (needle_repr _ _ _ _ R M), (needle_repr _ _ _ _ (repr_ext _ ext _ _ _ R) M). lia.
Qed.

(** * Reading *)
Lemma add_mapping_spec : forall m n pos acc pos' acc' n', Forall cp32 m -> 0 <= n -> pos <= 16384 -> n <= 20 ->
  add_mapping m n pos acc = Some (pos', acc', n') ->
  acc' = rev (stream m) ++ acc /\ pos' = pos + zlen (stream m) /\ n' = n + zlen m /\ pos' <= 16384 /\ n' <= 20 /\
  (m = [] \/ pos < 16384).
Proof.
  induction m as [|c m IH]; intros n pos acc pos' acc' n' F N P T; cbn [add_mapping].
  - intros H. injection H as <- <- <-. change (stream []) with (@nil Z). rewrite !zlen_nil. cbn [rev app]. repeat split; auto; lia.
  - unfold MAPDATA_SIZE, TMP_SIZE. destruct (16384 <=? pos) eqn:E1; [discriminate|]. destruct (20 <=? n) eqn:E2; [discriminate|].
    destruct (16384 <? pos + zlen (cp_stream c)) eqn:E3; [discriminate|]. zb. intros H.
    apply IH in H; [|exact (Forall_inv_tail F)|lia|lia|lia]. destruct H as (-> & -> & -> & H4 & H5 & _).
    cbn [stream flat_map]. fold (stream m). rewrite rev_append_rev, rev_app_distr, <- app_assoc, zlen_app, zlen_cons.
    repeat split; auto; try lia.
Qed.

(** What has been read: the rows [done], giving the entries [maps] (last first)
    and the mapping bytes [gen]. *)
Record read_inv (done : list row) (maps : list gmap) (gen : list Z) : Prop := ReadInv {
  ri_sorted : sorted_from g1 g2 0 (rev maps) = true;
  ri_top : match maps with [] => True | p :: _ => forall e, In e maps -> g2 e <= g2 p end;
  ri_repr : Forall (represented gen) maps;
  ri_len : zlen gen <= 16384;
  ri_total : total gen maps = zlen gen;
  ri_hi : forall e, In e maps -> g2 e <= 0x10ffff;
  ri_cover : forall r c, In r done -> within c r -> exists e, In e maps /\ inside c e /\ repr gen e (r_status r) (r_map r);
  ri_only : forall e c, In e maps -> inside c e -> exists r, In r done /\ within c r;
  ri_split : forall e b, In e maps -> In b bounds -> ~ (g1 e < b <= g2 e) }.

Lemma read_inv_nil : read_inv [] [] [].
Proof. split; cbn; auto; try lia; try (intros; contradiction). unfold zlen. cbn. lia. Qed.

Lemma sorted_from_app : forall {A} (lo hi : A -> Z) l x b, sorted_from lo hi b l = true -> b <= lo x -> lo x <= hi x ->
  (forall a, In a l -> hi a < lo x) -> sorted_from lo hi b (l ++ [x]) = true.
Proof.
  intros A lo hi. induction l as [|a l IH]; intros x b S B N X; cbn [app sorted_from] in *.
  - rewrite !andb_true_iff, !Z.leb_le. repeat split; auto.
  - rewrite !andb_true_iff, !Z.leb_le in *. destruct S as ((S1 & S2) & S3). split; [auto|].
    apply IH; auto. { specialize (X a (or_introl eq_refl)). lia. } intros; apply X; cbn; auto.
Qed.
Lemma sorted_from_last : forall {A} (lo hi : A -> Z) l x b, sorted_from lo hi b (l ++ [x]) = true ->
  sorted_from lo hi b l = true /\ b <= lo x /\ lo x <= hi x /\ (forall a, In a l -> hi a < lo x).
Proof.
  intros A lo hi. induction l as [|a l IH]; intros x b; cbn [app sorted_from]; rewrite ?andb_true_iff, ?Z.leb_le; intros S.
  - repeat split; try tauto. intros ? [].
  - destruct S as ((S1 & S2) & S3). apply IH in S3. destruct S3 as (S3 & S4 & S5 & S6). repeat split; auto; try lia.
    intros y [<-|I]; [lia|auto].
Qed.
Lemma flag_inj : forall s s', flag_of s = flag_of s' -> s = s'.
Proof. intros [] [] H; try reflexivity; discriminate. Qed.

Lemma read_row_inv : forall all done maps cnt gen r maps' cnt' pos' acc' pos acc,
  read_inv done maps gen -> row_ok r -> (forall b, In b bounds -> split_at all b) -> incl (done ++ [r]) all ->
  pos = zlen gen -> gen = rev acc ->
  read_row r maps cnt pos acc = Some (maps', cnt', pos', acc') ->
  read_inv (done ++ [r]) maps' (rev acc') /\ pos' = zlen (rev acc').
Proof.
  intros all done maps cnt gen r maps' cnt' pos' acc' pos acc [Srt Top Rep Len Tot Hi Cov Only Spl] (R0 & R1 & R2) SP Inc P G.
  unfold read_row. destruct (r_hi r <? r_lo r) eqn:E1; [discriminate|]. zb.
  destruct (match maps with [] => false | p :: _ => r_lo r <=? g2 p end) eqn:E2; [discriminate|].
  destruct (add_mapping (r_map r) 0 pos acc) as [[[p2 a2] n]|] eqn:A; [|discriminate].
  apply add_mapping_spec in A; [|exact R2|lia|lia|lia]. destruct A as (-> & -> & -> & A4 & A5 & A6).
  rewrite Z.add_0_l in *. destruct (_ && _ && _ && _); [discriminate|].
  set (m := r_map r) in *. set (off := if zlen m =? 0 then 0 else pos mod MAPDATA_SIZE).
  set (e := GMap (r_lo r) (r_hi r) (zlen m) off 0 (flag_of (r_status r))).
  assert (Below : forall x, In x maps -> g2 x < r_lo r).
  { intros x I. destruct maps as [|p ps]; [contradiction|]. zb. apply Top in I. lia. }
  assert (Mok : map_ok m) by (split; auto).
  assert (Gen' : rev (rev (stream m) ++ acc) = gen ++ stream m) by (rewrite rev_app_distr, rev_involutive, <- G; reflexivity).
  assert (Re : repr (gen ++ stream m) e (r_status r) m).
  { pose proof (zlen_nonneg _ gen). pose proof (zlen_nonneg _ (stream m)). split; cbn [gflags gn goff e]; auto.
    - unfold off. destruct (zlen m =? 0) eqn:E; [rewrite zlen_app; lia|]. unfold MAPDATA_SIZE.
      assert (pos < 16384). { destruct A6 as [A6|A6]; [|lia]. rewrite A6 in E. discriminate. }
      rewrite Z.mod_small by lia. rewrite zlen_app. lia.
    - intros ->. reflexivity.
    - unfold off. destruct (zlen m =? 0) eqn:E.
      + zb. assert (m = []) by (destruct m; [reflexivity|rewrite zlen_cons in E; pose proof (zlen_nonneg _ m); lia]).
        rewrite H1. exists (gen ++ stream []). reflexivity.
      + assert (pos < 16384). { destruct A6 as [A6|A6]; [|lia]. rewrite A6 in E. discriminate. }
        unfold MAPDATA_SIZE. rewrite Z.mod_small by lia. exists []. rewrite app_nil_r, P. unfold zlen. rewrite Nat2Z.id.
        rewrite skipn_app, skipn_all, Nat.sub_diag. reflexivity. }
  assert (New : forall q, q = e :: maps -> read_inv (done ++ [r]) q (rev (rev (stream m) ++ acc)) /\ pos + zlen (stream m) = zlen (rev (rev (stream m) ++ acc))).
  { intros q ->. rewrite Gen'. split; [|rewrite zlen_app; lia]. split.
    - cbn [rev]. apply sorted_from_app; auto. intros x I. apply in_rev in I. cbn [g1 e]. auto.
    - intros x [<-|I]; [lia|]. apply Below in I. cbn [g2 e]. lia.
    - constructor; [exists (r_status r), m; auto|]. eapply Forall_impl; [|exact Rep]. intros x X. apply represented_ext; exact X.
    - rewrite zlen_app. lia.
    - rewrite total_cons, total_ext by exact Rep. rewrite (needle_repr _ _ _ _ Re Mok), Tot, zlen_app. lia.
    - intros x [<-|I]; [exact R1|auto].
    - intros r' c I W. apply in_app_iff in I. destruct I as [I|[<-|[]]].
      + destruct (Cov r' c I W) as (x & Ix & Wx & Rx). exists x. split; [right; exact Ix|]. split; auto using repr_ext.
      + exists e. split; [left; reflexivity|]. split; [exact W|exact Re].
    - intros x c [<-|I] W.
      + exists r. split; [apply in_app_iff; right; left; reflexivity|exact W].
      + destruct (Only x c I W) as (r' & Ir & Wr). exists r'. split; [apply in_app_iff; auto|exact Wr].
    - intros x b [<-|I] B; [|auto]. apply (proj1 (SP b B) r). apply Inc. apply in_app_iff; cbn; auto. }
  destruct maps as [|p ps].
  - intros H. injection H as <- _ <- <-. apply New. reflexivity.
  - destruct (_ && _ && _ && _) eqn:M.
    2: { destruct (IDNA_MAP_SIZE <=? cnt + 1); [discriminate|]. intros H. injection H as <- _ <- <-. apply New. reflexivity. }
    intros H. injection H as <- _ <- <-. clear New. rewrite Gen'. zb.
    assert (m = []) by (destruct m; [reflexivity|rewrite zlen_cons in *; pose proof (zlen_nonneg _ m); lia]).
    assert (Stream : stream m = []) by (rewrite H3; reflexivity). rewrite Stream, app_nil_r in *.
    set (p' := GMap (g1 p) (r_hi r) (gn p) (goff p) (gidx p) (gflags p)) in *.
    assert (RepP : represented gen p) by exact (Forall_inv Rep).
    assert (PR : forall st mm, repr gen p st mm <-> repr gen p' st mm).
    { intros st mm. split; intros [F N O Z0 D]; split; auto. }
    assert (Pst : repr gen p (r_status r) m).
    { destruct RepP as (st & mm & [F N O Z0 D] & _). assert (mm = []).
      { destruct mm; [reflexivity|]. rewrite zlen_cons in N. pose proof (zlen_nonneg _ mm). lia. }
      subst mm. rewrite H3. split; auto; congruence. }
    cbn [rev] in Srt. apply sorted_from_last in Srt. destruct Srt as (S1 & S2 & S3 & S4).
    split; [|rewrite zlen_nil; lia]. split.
    + cbn [rev]. apply sorted_from_app; auto; cbn [g1 g2 p']; lia.
    + intros x [<-|I]; [lia|]. specialize (Below x (or_intror I)). cbn [g2 p']. lia.
    + constructor; [|exact (Forall_inv_tail Rep)]. exists (r_status r), m. split; [apply PR; exact Pst|exact Mok].
    + exact Len.
    + rewrite total_cons, (needle_fields gen p' p eq_refl eq_refl), <- total_cons. exact Tot.
    + intros x [<-|I]; [exact R1|apply Hi; right; exact I].
    + intros r' c I W. apply in_app_iff in I. destruct I as [I|[<-|[]]].
      * destruct (Cov r' c I W) as (x & [<-|Ix] & Wx & Rx).
        -- exists p'. split; [left; reflexivity|]. split; [|apply PR; exact Rx]. unfold inside in *. cbn [g1 g2 p']. lia.
        -- exists x. split; [right; exact Ix|auto].
      * exists p'. split; [left; reflexivity|]. split; [|apply PR; exact Pst]. unfold inside, within in *. cbn [g1 g2 p']. lia.
    + intros x c [<-|I] W.
      * unfold inside in W. cbn [g1 g2 p'] in W. destruct (Z.le_gt_cases c (g2 p)) as [L|L].
        -- destruct (Only p c (or_introl eq_refl)) as (r' & Ir & Wr); [unfold inside; lia|]. exists r'. split; [apply in_app_iff; auto|exact Wr].
        -- exists r. split; [apply in_app_iff; cbn; auto|]. unfold within. lia.
      * destruct (Only x c (or_intror I) W) as (r' & Ir & Wr). exists r'. split; [apply in_app_iff; auto|exact Wr].
    + intros x b [<-|I] B; [|apply Spl; cbn; auto]. cbn [g1 g2 p']. intros C.
      pose proof (Spl p b (or_introl eq_refl) B) as Sp. assert (Ia : In r all) by (apply Inc, in_app_iff; cbn; auto). pose proof (proj1 (SP b B) r Ia) as Sr.
      assert (r_lo r = b) by lia.
      destruct (Only p (g2 p) (or_introl eq_refl)) as (r' & Ir & Wr); [unfold inside; lia|].
      assert (Hr' : r_hi r' = g2 p).
      { destruct (Cov r' (r_hi r') Ir) as (x & Ix & Wx & _); [unfold within in *; lia|]. unfold inside, within in *. apply Top in Ix. lia. }
      destruct (Cov r' (g2 p) Ir Wr) as (x & Ix & Wx & Rx).
      assert (x = p). { destruct Ix as [<-|Ix]; [reflexivity|]. apply in_rev in Ix. apply S4 in Ix. unfold inside in Wx. lia. }
      subst x. refine (proj2 (SP b B) r' r _ _ _ _ _ _ _); auto; try lia.
      * apply Inc. apply in_app_iff; auto.
      * apply re_n in Rx. destruct (r_map r'); [reflexivity|]. rewrite zlen_cons in Rx. pose proof (zlen_nonneg _ l). lia.
      * apply re_flags in Rx. apply re_flags in Pst. apply flag_inj. congruence.
Qed.

Lemma read_rows_inv : forall rs all done maps cnt pos acc maps' gen',
  read_inv done maps (rev acc) -> pos = zlen (rev acc) -> Forall row_ok rs -> (forall b, In b bounds -> split_at all b) -> done ++ rs = all ->
  read_rows rs maps cnt pos acc = Some (maps', gen') -> read_inv all (rev maps') gen'.
Proof.
  induction rs as [|r rs IH]; intros all done maps cnt pos acc maps' gen' I P F SP E; cbn [read_rows].
  - intros H. injection H as <- <-. rewrite !rev_append_rev, !app_nil_r, rev_involutive. rewrite app_nil_r in E. subst. exact I.
  - destruct (read_row r maps cnt pos acc) as [[[[m2 c2] p2] a2]|] eqn:R; [|discriminate].
    intros H. eapply read_row_inv in R; [|exact I|exact (Forall_inv F)|exact SP| |exact P|reflexivity].
    2: { subst all. intros x X. apply in_app_iff in X. apply in_app_iff. cbn in *. tauto. }
    destruct R as (I' & P'). eapply IH; [exact I'|exact P'|exact (Forall_inv_tail F)|exact SP| |exact H].
    rewrite <- app_assoc. exact E.
Qed.

(** * Removing duplicate mappings *)
Definition moved (gen data : list Z) (e e' : gmap) : Prop :=
  g1 e' = g1 e /\ g2 e' = g2 e /\ forall st m, repr gen e st m -> map_ok m -> repr data e' st m.
Lemma moved_ext : forall gen data ext e e', moved gen data e e' -> moved gen (data ++ ext) e e'.
Proof. intros gen data ext e e' (A & B & C). split; [exact A|]. split; [exact B|]. intros. apply repr_ext. auto. Qed.

Lemma zlen0 : forall {A} (l : list A), zlen l = 0 -> l = [].
Proof. intros A [|x l] H; [reflexivity|]. rewrite zlen_cons in H. pose proof (zlen_nonneg _ l). lia. Qed.

(** An entry moved to where its bytes are. *)
Lemma moved_to : forall gen pre nd t e off i, represented gen e -> gn e <> 0 -> nd = needle gen e -> zlen pre + zlen nd <= 16384 ->
  off = zlen pre -> moved gen (pre ++ nd ++ t) e (GMap (g1 e) (g2 e) (gn e) (off mod MAPDATA_SIZE) i (gflags e)).
Proof.
  intros gen pre nd t e off i (st0 & m0 & R0 & M0) N -> L ->. pose proof (needle_repr _ _ _ _ R0 M0) as ND0.
  assert (NE : 0 < zlen (needle gen e)).
  { rewrite ND0. pose proof (stream_len m0 (proj1 M0)). pose proof (zlen_nonneg _ m0). rewrite (re_n _ _ _ _ R0) in N. lia. }
  pose proof (zlen_nonneg _ pre). pose proof (zlen_nonneg _ t).
  split; [reflexivity|]. split; [reflexivity|]. intros st m R M. unfold MAPDATA_SIZE. rewrite Z.mod_small by lia.
  pose proof (needle_repr _ _ _ _ R M) as ND. destruct R as [F N' O Z0 D]. split; cbn [gflags gn goff]; auto.
  - rewrite !zlen_app. lia.
  - intros ->. rewrite N' in N. contradiction N. reflexivity.
  - exists t. rewrite ND. unfold zlen. rewrite Nat2Z.id, skipn_app, skipn_all, Nat.sub_diag. reflexivity.
Qed.

#[local] Opaque cp_stream_prefix.
Lemma compact_cons : forall gen e es data, compact_loop gen (e :: es) data =
  if gn e =? 0 then let (ms, d) := compact_loop gen es data in (e :: ms, d)
  else match u8_memmem data (needle gen e) with
       | Some q => let (ms, d) := compact_loop gen es data in
           (GMap (g1 e) (g2 e) (gn e) ((zlen data - zlen q) mod MAPDATA_SIZE) (gidx e) (gflags e) :: ms, d)
       | None => let (ms, d) := compact_loop gen es (data ++ needle gen e) in
           (GMap (g1 e) (g2 e) (gn e) (zlen data mod MAPDATA_SIZE) (gidx e) (gflags e) :: ms, d)
       end.
Proof. intros. unfold needle. cbn [compact_loop]. reflexivity. Qed.
#[local] Opaque needle.
Lemma compact_loop_spec : forall L gen data L' data', Forall (represented gen) L -> zlen data + total gen L <= 16384 ->
  compact_loop gen L data = (L', data') ->
  (exists ext, data' = data ++ ext) /\ Forall2 (moved gen data') L L' /\ zlen data' <= 16384.
Proof.
  induction L as [|e L IH]; intros gen data L' data' F B.
  - cbn [compact_loop]. intros H. injection H as <- <-. split; [exists []; now rewrite app_nil_r|]. split; [constructor|cbn [total] in B; lia].
  - rewrite compact_cons. rewrite total_cons in B. pose proof (zlen_nonneg _ (needle gen e)). pose proof (total_nonneg gen L).
    pose proof (Forall_inv F) as Re. apply Forall_inv_tail in F. destruct (gn e =? 0) eqn:E; zb.
    + destruct (compact_loop gen L data) as [ms d] eqn:C. apply IH in C; [|exact F|lia]. destruct C as ((ext & ->) & C2 & C3).
      intros H1. injection H1 as <- <-. split; [exists ext; reflexivity|]. split; [|exact C3]. constructor; [|exact C2].
      split; [reflexivity|]. split; [reflexivity|]. intros st m [R1 R2 R3 R4 R5] M. rewrite E in R2. symmetry in R2. apply zlen0 in R2. subst m.
      specialize (R4 eq_refl). split; auto.
      * rewrite R4. pose proof (zlen_nonneg _ (data ++ ext)). lia.
      * eexists. reflexivity.
    + destruct (u8_memmem data (needle gen e)) as [q|] eqn:Q.
      * destruct (compact_loop gen L data) as [ms d] eqn:C. apply IH in C; [|exact F|lia]. destruct C as ((ext & ->) & C2 & C3).
        intros H1. injection H1 as <- <-. split; [exists ext; reflexivity|]. split; [|exact C3]. constructor; [|exact C2].
        apply memmem_spec in Q. destruct Q as (pre & t & Q1 & Q2). apply moved_ext. rewrite Q1 at 1. rewrite Q2 at 1. apply moved_to; auto.
        -- rewrite Q1, Q2, !zlen_app in C3. pose proof (zlen_nonneg _ t). pose proof (zlen_nonneg _ ext). lia.
        -- rewrite Q1, zlen_app. lia.
      * destruct (compact_loop gen L (data ++ needle gen e)) as [ms d] eqn:C. apply IH in C; [|exact F|rewrite zlen_app; lia].
        destruct C as ((ext & ->) & C2 & C3). intros H1. injection H1 as <- <-.
        split; [exists (needle gen e ++ ext); now rewrite app_assoc|]. split; [|exact C3]. constructor; [|exact C2].
        rewrite <- app_assoc. apply moved_to; auto. lia.
Qed.

Lemma by_cp_le : forall a b, g1 a <= g2 a -> g1 b <= g2 b -> apart g1 g2 a b -> (by_cp a b = true -> g2 a < g1 b) /\ (by_cp a b = false -> g2 b < g1 a).
Proof.
  intros a b A B X. unfold by_cp, apart in *. split; intros H; [apply orb_true_iff in H; destruct H|]; zb; lia.
Qed.

Lemma Forall2_in_l : forall {A B} (P : A -> B -> Prop) l l' a, Forall2 P l l' -> In a l -> exists b, In b l' /\ P a b.
Proof.
  intros A B P l l' a F. induction F as [|x y l l' H F IH]; intros I; [destruct I|]. destruct I as [->|I].
  - exists y. split; [left; reflexivity|exact H].
  - destruct (IH I) as (b & J & K). exists b. split; [right; exact J|exact K].
Qed.
Lemma Forall2_in_r : forall {A B} (P : A -> B -> Prop) l l' b, Forall2 P l l' -> In b l' -> exists a, In a l /\ P a b.
Proof.
  intros A B P l l' b F. induction F as [|x y l l' H F IH]; intros I; [destruct I|]. destruct I as [->|I].
  - exists x. split; [left; reflexivity|exact H].
  - destruct (IH I) as (a & J & K). exists a. split; [right; exact J|exact K].
Qed.
Lemma good_map : forall l l' P, Forall2 P l l' -> (forall e e', P e e' -> g1 e' = g1 e /\ g2 e' = g2 e) -> good g1 g2 l -> good g1 g2 l'.
Proof.
  intros l l' P F K. unfold good. induction F as [|e e' l l' H F IH]; [auto|]. intros (G1 & G2). destruct (K _ _ H) as (K1 & K2).
  inversion G2 as [|? ? X G2']; subst. destruct (IH (conj (Forall_inv_tail G1) G2')) as (I1 & I2). split; constructor; auto.
  - rewrite K1, K2. exact (Forall_inv G1).
  - apply Forall_forall. intros y J. destruct (Forall2_in_r _ _ _ _ F J) as (x & Jx & Px). destruct (K _ _ Px) as (K3 & K4).
    rewrite Forall_forall in X. apply X in Jx. unfold apart in *. lia.
Qed.

(** * Numbering the flags *)
Lemma index_of_spec : forall l x i k, index_of x l i = Some k -> exists j, k = i + Z.of_nat j /\ nth_error l j = Some x.
Proof.
  induction l as [|y l IH]; intros x i k; cbn [index_of]; [discriminate|]. destruct (y =? x) eqn:E; zb.
  - intros H. injection H as <-. exists 0%nat. subst. split; [lia|reflexivity].
  - intros H. apply IH in H. destruct H as (j & -> & N). exists (Datatypes.S j). split; [lia|exact N].
Qed.
Definition numbered (combos : list Z) (e e' : gmap) : Prop :=
  g1 e' = g1 e /\ g2 e' = g2 e /\ gn e' = gn e /\ goff e' = goff e /\ gflags e' = gflags e /\
  0 <= gidx e' < 8 /\ rd combos (gidx e') = Ok (gflags e).
Lemma rd_nth : forall l i x, nth_error l i = Some x -> rd l (Z.of_nat i) = Ok x.
Proof.
  intros l i x N. unfold rd. destruct (Z.of_nat i <? 0) eqn:E; zb; [lia|]. rewrite Nat2Z.id, N. reflexivity.
Qed.
Lemma combine_spec : forall L combos L' combos', combine_flags L combos = Some (L', combos') -> zlen combos <= 8 ->
  (exists ext, combos' = combos ++ ext) /\ Forall2 (numbered combos') L L' /\ zlen combos' <= 8.
Proof.
  induction L as [|e L IH]; intros combos L' combos' H B; cbn [combine_flags] in H.
  - injection H as <- <-. split; [exists []; now rewrite app_nil_r|]. split; [constructor|exact B].
  - assert (K : forall c2 L2 j, (exists ext, c2 = combos ++ ext) -> nth_error c2 j = Some (gflags e) -> (j < 8)%nat -> Forall2 (numbered c2) L L2 ->
      Forall2 (numbered c2) (e :: L) (GMap (g1 e) (g2 e) (gn e) (goff e) (Z.of_nat j) (gflags e) :: L2)).
    { intros c2 L2 j X N J F. constructor; [|exact F]. repeat split; cbn [gidx]; try lia. now apply rd_nth. }
    destruct (index_of (gflags e) combos 0) as [k|] eqn:X.
    + apply index_of_spec in X. destruct X as (j & -> & N). rewrite Z.add_0_l in H.
      destruct (combine_flags L combos) as [[L2 c2]|] eqn:C; [|discriminate]. injection H as <- <-. apply IH in C; [|exact B].
      destruct C as ((ext & ->) & C2 & C3). split; [exists ext; reflexivity|]. split; [|exact C3].
      assert (j < length combos)%nat by (apply nth_error_Some; congruence). apply K; eauto.
      * rewrite nth_error_app1; auto.
      * unfold zlen in B. lia.
    + destruct (8 <=? zlen combos) eqn:E; [discriminate|]. zb.
      destruct (combine_flags L (combos ++ [gflags e])) as [[L2 c2]|] eqn:C; [|discriminate]. injection H as <- <-.
      apply IH in C; [|rewrite zlen_app, zlen_cons, zlen_nil; lia].
      destruct C as ((ext & ->) & C2 & C3). split; [exists ([gflags e] ++ ext); now rewrite app_assoc|]. split; [|exact C3].
      unfold zlen at 1. apply K; auto.
      * exists ([gflags e] ++ ext). now rewrite app_assoc.
      * rewrite <- app_assoc. rewrite nth_error_app2, Nat.sub_diag by lia. reflexivity.
      * unfold zlen in E. lia.
Qed.
Lemma numbered_repr : forall combos gen e e' st m, numbered combos e e' -> repr gen e st m -> repr gen e' st m.
Proof.
  intros combos gen e e' st m (A & B & C & D & E & _) [F N O Z0 W]. split; [now rewrite E|now rewrite C|now rewrite D|now rewrite D|now rewrite D].
Qed.

(** * The entries that get printed *)
Record entries_ok (rows : list row) (es : list gmap) (combos data : list Z) : Prop := EntriesOk {
  eo_sorted : sorted_from g1 g2 0 es = true;
  eo_hi : forall e, In e es -> g2 e <= 0x10ffff;
  eo_split : forall e b, In e es -> In b bounds -> ~ (g1 e < b <= g2 e);
  eo_repr : forall e, In e es -> represented data e;
  eo_idx : forall e, In e es -> 0 <= gidx e < 8 /\ rd combos (gidx e) = Ok (gflags e);
  eo_cover : forall r c, In r rows -> within c r -> exists e, In e es /\ inside c e /\ repr data e (r_status r) (r_map r);
  eo_only : forall e c, In e es -> inside c e -> exists r, In r rows /\ within c r;
  eo_maps : forall r, In r rows -> r_lo r <= r_hi r /\ map_ok (r_map r) }.

Lemma read_rows_maps : forall rs maps cnt pos acc maps' gen', Forall row_ok rs -> pos <= 16384 ->
  read_rows rs maps cnt pos acc = Some (maps', gen') -> forall r, In r rs -> r_lo r <= r_hi r /\ map_ok (r_map r).
Proof.
  induction rs as [|r rs IH]; intros maps cnt pos acc maps' gen' F P H x I; [destruct I|]. cbn [read_rows] in H.
  destruct (read_row r maps cnt pos acc) as [[[[m2 c2] p2] a2]|] eqn:R; [|discriminate].
  assert (K : r_lo r <= r_hi r /\ map_ok (r_map r) /\ p2 <= 16384).
  { unfold read_row in R. destruct (r_hi r <? r_lo r) eqn:E1; [discriminate|]. zb.
    destruct (match maps with [] => false | p :: _ => r_lo r <=? g2 p end) eqn:E2; [discriminate|].
    destruct (add_mapping (r_map r) 0 pos acc) as [[[p3 a3] n]|] eqn:A; [|discriminate].
    pose proof (Forall_inv F) as (F1 & F2 & F3).
    apply add_mapping_spec in A; [|exact F3|lia|lia|lia]. destruct A as (-> & -> & -> & A4 & A5 & A6).
    destruct (_ && _ && _ && _); [discriminate|].
    split; [exact E1|]. split; [split; [exact F3|lia]|].
    destruct maps as [|p ps]; [|destruct (_ && _ && _ && _); [|destruct (IDNA_MAP_SIZE <=? cnt + 1); [discriminate|]]]; injection R as _ _ <- _; exact A4. }
  destruct K as (K1 & K2 & K3). destruct I as [<-|I]; [auto|]. exact (IH _ _ _ _ _ _ (Forall_inv_tail F) K3 H x I).
Qed.

Lemma prepare_ok : forall rows maps gen maps1 data maps2 combos,
  Forall row_ok rows -> (forall b, In b bounds -> split_at rows b) ->
  read_rows rows [] 0 0 [] = Some (maps, gen) -> compact maps gen = (maps1, data) -> combine_flags maps1 [] = Some (maps2, combos) ->
  entries_ok rows maps2 combos data.
Proof.
  intros rows maps gen maps1 data maps2 combos F SP R C N.
  pose proof (read_rows_maps rows [] 0 0 [] maps gen F ltac:(lia) R) as RM.
  apply (read_rows_inv rows rows []) in R; auto; [|exact read_inv_nil]. destruct R as [Srt Top Rep Len Tot Hi Cov Only Spl].
  unfold compact in C. destruct (compact_loop gen (qsort by_maplen maps) []) as [ms d] eqn:L. injection C as <- <-.
  pose proof (qsort_perm by_maplen maps) as P1. pose proof (Permutation_rev maps) as P0.
  assert (P2 : Permutation (rev maps) (qsort by_maplen maps)) by (eapply Permutation_trans; [apply Permutation_sym; exact P0|apply Permutation_sym; exact P1]).
  apply compact_loop_spec in L.
  2: { eapply Permutation_Forall; [exact P2|exact Rep]. }
  2: { rewrite <- (total_perm _ _ _ P2), Tot, zlen_nil. lia. }
  destruct L as (_ & L2 & L3). apply combine_spec in N; [|rewrite zlen_nil; lia]. destruct N as (_ & N2 & _).
  pose proof (qsort_perm by_cp ms) as P3. rewrite rev_involutive in Srt.
  (* from entries read to entries printed and back *)
  assert (To : forall e, In e (rev maps) -> exists e', In e' maps2 /\ g1 e' = g1 e /\ g2 e' = g2 e /\ (forall st m, repr gen e st m -> map_ok m -> repr d e' st m)).
  { intros e I. apply (Permutation_in _ P2) in I. destruct (Forall2_in_l _ _ _ _ L2 I) as (e1 & I1 & (M1 & M2 & M3)).
    apply (Permutation_in _ (Permutation_sym P3)) in I1. destruct (Forall2_in_l _ _ _ _ N2 I1) as (e2 & I2 & Q).
    exists e2. split; [exact I2|]. destruct Q as (Q1 & Q2 & Q3). split; [congruence|]. split; [congruence|].
    intros st m X Y. eapply numbered_repr; [|apply M3; eassumption]. exact (conj Q1 (conj Q2 Q3)). }
  assert (From : forall e', In e' maps2 -> (0 <= gidx e' < 8 /\ rd combos (gidx e') = Ok (gflags e')) /\
     exists e, In e (rev maps) /\ g1 e' = g1 e /\ g2 e' = g2 e /\ (forall st m, repr gen e st m -> map_ok m -> repr d e' st m)).
  { intros e2 I2. destruct (Forall2_in_r _ _ _ _ N2 I2) as (e1 & I1 & Q). apply (Permutation_in _ P3) in I1.
    destruct (Forall2_in_r _ _ _ _ L2 I1) as (e & I & (M1 & M2 & M3)). apply (Permutation_in _ (Permutation_sym P2)) in I.
    pose proof Q as (Q1 & Q2 & Q3 & Q4 & Q5 & Q6 & Q7). split; [split; [exact Q6|congruence]|].
    exists e. split; [exact I|]. split; [congruence|]. split; [congruence|]. intros st m X Y. eapply numbered_repr; [exact Q|]. apply M3; assumption. }
  assert (Lo : forall e, In e (rev maps) -> 0 <= g1 e).
  { intros e I. apply in_rev in I. exact (proj1 (sorted_in _ _ _ _ _ Srt I)). }
  assert (Sorted2 : sorted_from g1 g2 0 maps2 = true).
  { assert (G : sorted_from g1 g2 0 (qsort by_cp ms) = true).
    { apply qsort_sorted; [exact by_cp_le| |].
      - refine (good_map _ _ _ L2 _ _); [intros ? ? (? & ? & _); auto|]. apply (good_perm g1 g2 _ _ (Permutation_sym P1)).
        eapply sorted_from_good. exact Srt.
      - apply Forall_forall. intros x I. destruct (Forall2_in_r _ _ _ _ L2 I) as (e & J & (M1 & _)). rewrite M1. apply Lo.
        apply (Permutation_in _ (Permutation_sym P2)). exact J. }
    revert G. generalize 0. clear - N2. induction N2 as [|e e' l l' Q F IH]; intros b; [auto|]. cbn [sorted_from].
    destruct Q as (Q1 & Q2 & _). rewrite Q1, Q2, !andb_true_iff. intros (A & B). split; [exact A|apply IH; exact B]. }
  split.
  - exact Sorted2.
  - intros e I. apply From in I. destruct I as (_ & e0 & I & _ & E & _). rewrite E. auto.
  - intros e b I B. apply From in I. destruct I as (_ & e0 & I & E1 & E2 & _). rewrite E1, E2. auto.
  - intros e I. apply From in I. destruct I as (_ & e0 & I & _ & _ & T). rewrite Forall_forall in Rep. apply Rep in I.
    destruct I as (st & m & X & Y). exists st, m. auto.
  - intros e I. apply From in I. apply I.
  - intros r c I W. destruct (Cov r c I W) as (e & Ie & We & Re). destruct (To e Ie) as (e' & I' & E1 & E2 & T).
    exists e'. split; [exact I'|]. split; [unfold inside in *; lia|]. apply T; auto. apply (RM r I).
  - intros e c I W. apply From in I. destruct I as (_ & e0 & I & E1 & E2 & _). apply (Only e0 c I). unfold inside in *. lia.
  - exact RM.
Qed.
