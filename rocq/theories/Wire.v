(** The names lookup returns, as names in DNS messages. *)
From Verif Require Import Base PunyBase Uenv DataTypes SpecUtf8 SpecPuny SpecTables SpecNfc SpecLookup Lookup LookupProofs LookupTr46 LookupIdem LookupMisc LookupMap StableProofs LookupTop LookupCodes Compose SpecToAscii SpecWire Ucd UcdProofs.

Lemma wire_len : forall ls w, wire ls w -> ls <> [] -> zlen w = zlen (join ls) + 2.
Proof.
  induction 1 as [|l ls w L W IH]; intros N; [congruence|]. rewrite zlen_cons, zlen_app. destruct ls as [|x ls].
  - inversion W; subst. cbn [join]. change (zlen [0]) with 1. lia.
  - rewrite IH by discriminate. change (join (l :: x :: ls)) with (l ++ 46 :: join (x :: ls)). rewrite zlen_app, zlen_cons. lia.
Qed.
Lemma wire_exists : forall ls, Forall (fun l => 1 <= zlen l <= 63) ls -> exists w, wire ls w.
Proof.
  induction ls as [|l ls IH]; intros F; [exists [0]; constructor|]. inversion F; subst. destruct (IH H2) as (w & W). eexists. econstructor; eauto.
Qed.
Lemma wire_labels : forall ls w, wire ls w -> Forall (fun l => 1 <= zlen l <= 63) ls.
Proof. induction 1; constructor; auto. Qed.
Lemma wire_fun : forall ls v w, wire ls v -> wire ls w -> v = w.
Proof. intros ls v w H. revert w. induction H as [|l ls v L V IH]; intros w W; inversion W; subst; [reflexivity|]. f_equal. f_equal. auto. Qed.
Lemma zlen_pos : forall (l : list Z), l <> [] -> 1 <= zlen l.
Proof. intros [|x l] N; [congruence|]. rewrite zlen_cons. pose proof (zlen_nonneg _ l). lia. Qed.

(** A name that fits is one that can be sent. *)
Lemma fits_wire : forall s, no_gap s -> (fits s <-> exists w, on_wire s w).
Proof.
  intros s (ls & N & F & E). assert (N46 : Forall (fun l => ~ In 46 l) ls) by (eapply Forall_impl; [|exact F]; cbn; tauto).
  assert (DJ : dotted ls (join ls)) by (split; auto).
  assert (DJ' : dotted (ls ++ [[]]) (join ls ++ [46])).
  { change [46] with (46 :: @nil Z). apply dotted_glue; [exact DJ|]. split; [discriminate|]. split; [repeat constructor; auto|reflexivity]. }
  split.
  - intros (FL & L). assert (LL : Forall (fun l => zlen l <= 63) ls).
    { destruct E as [->| ->]; [exact (FL _ DJ)|]. specialize (FL _ DJ'). apply Forall_app in FL. apply FL. }
    destruct (wire_exists ls) as (w & W).
    { rewrite Forall_forall in *. intros l I. split; [apply zlen_pos, F, I|exact (LL l I)]. }
    exists w, ls. split; [exact N|]. split; [exact N46|]. split; [exact E|]. split; [exact W|]. rewrite (wire_len ls w W N).
    destruct E as [->| ->].
    + destruct L as [L|(L & t & T)]; [lia|]. exfalso. destruct (last_empty ls (join ls) DJ) as (_ & X).
      specialize (X (or_intror (ex_intro _ t T))). rewrite Forall_forall in F. destruct (exists_last N) as (a & b & ->). rewrite last_last in X. subst b.
      apply (proj1 (F [] ltac:(apply in_or_app; right; left; reflexivity))). reflexivity.
    + rewrite zlen_app in L. change (zlen [46]) with 1 in L. lia.
  - intros (w & ls' & N' & F' & E' & W & L). pose proof (wire_len ls' w W N') as LW. pose proof (wire_labels _ _ W) as LB.
    assert (D1 : dotted ls' (join ls')) by (split; auto).
    assert (D2 : dotted (ls' ++ [[]]) (join ls' ++ [46])).
    { change [46] with (46 :: @nil Z). apply dotted_glue; [exact D1|]. split; [discriminate|]. split; [repeat constructor; auto|reflexivity]. }
    assert (B : Forall (fun l => zlen l <= 63) ls') by (eapply Forall_impl; [|exact LB]; cbn; lia). split.
    + intros ds D. destruct E' as [->| ->].
      * now rewrite (dotted_fun _ _ _ D D1).
      * rewrite (dotted_fun _ _ _ D D2). apply Forall_app. split; [exact B|]. constructor; [change (zlen (@nil Z)) with 0; lia|constructor].
    + destruct E' as [->| ->]; [left; lia|]. rewrite zlen_app. change (zlen [46]) with 1.
      destruct (Z.eq_dec (zlen (join ls')) 253); [right; split; [lia|eauto]|left; lia].
Qed.

Lemma lookup_fits : forall U src f r, nfc_ok U -> c_string src -> zlen src < two64 -> lookup_u8 U src f = Ok r -> fits r.
Proof.
  intros U src f r K C L H. destruct (lookup_shape U src f r K C L H) as (_ & (ls & D & F) & B). split; [|exact B].
  intros ds D'. now rewrite (dotted_fun _ _ _ D' D).
Qed.
Lemma lookup_wire : forall U src f r, nfc_ok U -> c_string src -> zlen src < two64 -> lookup_u8 U src f = Ok r -> no_gap r -> exists w, on_wire r w.
Proof. intros U src f r K C L H G. apply fits_wire; auto. eapply lookup_fits; eauto. Qed.
Lemma ascii_wire : forall U s f, nfc_ok U -> ascii_string s -> zlen s < two64 -> opt_no_tr46 f = true -> ~ bad_flags f ->
  (opt_no_roundtrip f = false -> forall ls l, dotted ls s -> In l ls -> ~ xn l) -> no_gap s ->
  (lookup_u8 U s f = Ok s <-> exists w, on_wire s w).
Proof.
  intros U s f K A L T B X G. rewrite <- (fits_wire s G). destruct (ascii_passthrough U s f K A L T B X) as (P & Q). split; [|exact P].
  intros H. eapply lookup_fits; eauto. unfold c_string. eapply Forall_impl; [|exact A]. cbn. intros; lia.
Qed.

(** ** One name, one message *)
Lemma on_wire_fun : forall s v w, on_wire s v -> on_wire s w -> v = w.
Proof.
  intros s v w (ls & N & F & E & W & _) (ls' & N' & F' & E' & W' & _). pose proof (wire_labels _ _ W) as B. pose proof (wire_labels _ _ W') as B'.
  assert (G : forall k : list (list Z), k <> [] -> Forall (fun l => 1 <= zlen l <= 63) k -> Forall (fun l => ~ In 46 l) k -> dotted k (join k) /\ dotted (k ++ [[]]) (join k ++ [46]) /\ forall h, k <> h ++ [[]]).
  { intros k Nk Bk Fk. assert (D1 : dotted k (join k)) by (split; auto). split; [exact D1|]. split.
    - change [46] with (46 :: @nil Z). apply dotted_glue; [exact D1|]. split; [discriminate|]. split; [repeat constructor; auto|reflexivity].
    - intros h ->. apply Forall_app in Bk. destruct Bk as (_ & Bk). inversion Bk as [|x y H1 H2]; subst. change (zlen (@nil Z)) with 0 in H1. lia. }
  destruct (G ls N B F) as (D1 & D2 & X1). destruct (G ls' N' B' F') as (D3 & D4 & X2).
  assert (ls = ls'); [|subst ls'; eapply wire_fun; eauto].
  destruct E as [->| ->], E' as [E'|E'].
  - rewrite E' in D1. eapply dotted_fun; eauto.
  - rewrite E' in D1. exfalso. eapply X1. eapply dotted_fun; eauto.
  - rewrite E' in D2. exfalso. eapply X2. eapply dotted_fun; eauto.
  - rewrite E' in D2. pose proof (dotted_fun _ _ _ D2 D4) as Q. apply app_inv_tail in Q. exact Q.
Qed.
Lemma wire_lower : forall ls w, wire ls w -> wire (map (map lower) ls) (map lower w).
Proof.
  induction 1 as [|l ls w L W IH]; [constructor|]. cbn [map]. rewrite map_app. assert (lower (zlen l) = zlen l) as ->.
  { unfold lower. destruct ((65 <=? zlen l) && (zlen l <=? 90)) eqn:X; zb; lia. }
  assert (E : zlen (map lower l) = zlen l) by (unfold zlen; now rewrite map_length). rewrite <- E. constructor; [lia|exact IH].
Qed.
Lemma app_len_inj : forall (a b v w : list Z), length a = length b -> a ++ v = b ++ w -> a = b /\ v = w.
Proof.
  induction a as [|x a IH]; intros [|y b] v w L E; try discriminate; [auto|]. cbn in L, E. injection E as -> E.
  destruct (IH b v w ltac:(lia) E) as (-> & ->). auto.
Qed.
Lemma wire_inj : forall ls w, wire ls w -> forall ls', wire ls' w -> ls = ls'.
Proof.
  induction 1 as [|l ls w L W IH]; intros ls' W'.
  - inversion W' as [E|l' k w' L' W'' E1 E2]; [reflexivity|]. exfalso. lia.
  - inversion W' as [E|l' k w' L' W'' E1 E2]; [exfalso; lia|]. subst.
    destruct (app_len_inj l' l w' w) as (-> & ->); [unfold zlen in *; lia|assumption|]. f_equal. now apply IH.
Qed.
Lemma final_dot : forall ls s t, s = join ls \/ s = join ls ++ [46] -> t = join ls \/ t = join ls ++ [46] -> same_but_final_dot s t.
Proof. intros ls s t [->| ->] [->| ->]; unfold same_but_final_dot; auto. Qed.
Lemma lower_id : forall r, Forall (fun b => ~ (65 <= b <= 90)) r -> map lower r = r.
Proof.
  induction 1 as [|x r N F IH]; [reflexivity|]. cbn [map]. rewrite IH. unfold lower. destruct ((65 <=? x) && (x <=? 90)) eqn:X; zb; [tauto|reflexivity].
Qed.
Lemma join_map : forall ls, map lower (join ls) = join (map (map lower) ls).
Proof.
  induction ls as [|l ls IH]; [reflexivity|]. destruct ls as [|x ls]; [reflexivity|].
  change (join (l :: x :: ls)) with (l ++ 46 :: join (x :: ls)). rewrite map_app. change (map lower (46 :: join (x :: ls))) with (46 :: map lower (join (x :: ls))). rewrite IH. reflexivity.
Qed.
Lemma wire_same : forall s t v w, on_wire s v -> on_wire t w -> same_owner v w -> same_but_final_dot (map lower s) (map lower t).
Proof.
  intros s t v w (ls & N & F & E & W & _) (ls' & N' & F' & E' & W' & _) S. apply wire_lower in W, W'. unfold same_owner in S. rewrite S in W.
  pose proof (wire_inj _ _ W _ W') as Q. apply (final_dot (map (map lower) ls)).
  - rewrite <- join_map. destruct E as [->| ->]; [auto|]. right. rewrite map_app. reflexivity.
  - rewrite Q, <- join_map. destruct E' as [->| ->]; [auto|]. right. rewrite map_app. reflexivity.
Qed.
(** Different results are different names for the servers. *)
Lemma results_distinct : forall U V a b f g r s v w, nfc_ok U -> nfc_ok V -> c_string a -> zlen a < two64 -> c_string b -> zlen b < two64 ->
  opt_no_roundtrip f = false -> opt_no_tr46 f = false -> opt_no_roundtrip g = false -> opt_no_tr46 g = false ->
  lookup_u8 U a f = Ok r -> lookup_u8 V b g = Ok s -> on_wire r v -> on_wire s w -> same_owner v w -> same_but_final_dot r s.
Proof.
  intros U V a b f g r s v w KU KV CA LA CB LB NF TF NG TG HA HB WV WW SO. pose proof (wire_same _ _ _ _ WV WW SO) as X.
  rewrite (lower_id r), (lower_id s) in X; auto; eapply no_upper_case; [exact KV|exact CB| | | |exact HB|exact KU|exact CA| | | |exact HA]; auto.
Qed.

(** ** Cases *)
From Verif Require Import LookupExamples.
Lemma two_dots : lookup_u8 ucd [97; 46; 46; 98] 0 = Ok [97; 46; 46; 98] /\ forall w, ~ on_wire [97; 46; 46; 98] w.
Proof.
  split; [vm_compute; reflexivity|]. intros w (ls & N & F & E & W & _). pose proof (wire_labels _ _ W) as B.
  assert (D : dotted [[97]; []; [98]] [97; 46; 46; 98]) by (split; [discriminate|]; split; [repeat constructor; cbn; intuition lia|reflexivity]).
  assert (D1 : dotted ls (join ls)) by (split; auto). destruct E as [E|E].
  - rewrite E in D. pose proof (dotted_fun _ _ _ D1 D) as ->. inversion B as [|x y B1 B2]; subst. inversion B2 as [|x y B3 B4]; subst. change (zlen (@nil Z)) with 0 in B3. lia.
  - apply (f_equal (fun l => last l 0)) in E. rewrite last_last in E. discriminate E.
Qed.
Lemma raw_case : exists r s v w, lookup_u8 ucd [65] IDN2_NO_TR46 = Ok r /\ lookup_u8 ucd [97] IDN2_NO_TR46 = Ok s /\ on_wire r v /\ on_wire s w /\ same_owner v w /\ ~ same_but_final_dot r s.
Proof.
  exists [65], [97], [1; 65; 0], [1; 97; 0]. assert (W : forall c, c <> 46 -> on_wire [c] [1; c; 0]).
  { intros c N. exists [[c]]. split; [discriminate|]. split; [repeat constructor; cbn; intuition lia|]. split; [auto|]. split; [apply (w_label [c]); [unfold zlen; cbn [length]; lia|constructor]|unfold zlen; cbn [length]; lia]. }
  split; [vm_compute; reflexivity|]. split; [vm_compute; reflexivity|]. split; [apply W; lia|]. split; [apply W; lia|]. split; [reflexivity|].
  intros [X|[X|X]]; discriminate X.
Qed.
Definition wire_buecher : list Z := [13;120;110;45;45;98;99;104;101;114;45;107;118;97;2;101;120;0].
Lemma case_wire : nfc_ok ucd /\ c_string buecher /\ lookup_u8 ucd buecher 0 = Ok xn_buecher /\ no_gap xn_buecher /\ on_wire xn_buecher wire_buecher /\ on_wire (xn_buecher ++ [46]) wire_buecher.
Proof.
  assert (F : Forall (fun l => ~ In 46 l) [[120;110;45;45;98;99;104;101;114;45;107;118;97]; [101;120]]) by (repeat constructor; cbn; intuition lia).
  assert (W : wire [[120;110;45;45;98;99;104;101;114;45;107;118;97]; [101;120]] wire_buecher).
  { apply (w_label [120;110;45;45;98;99;104;101;114;45;107;118;97]); [unfold zlen; cbn [length]; lia|]. apply (w_label [101;120]); [unfold zlen; cbn [length]; lia|constructor]. }
  split; [exact ucd_nfc_ok|]. split; [apply case_buecher|]. split; [vm_compute; reflexivity|]. split.
  - exists [[120;110;45;45;98;99;104;101;114;45;107;118;97]; [101;120]]. split; [discriminate|]. split; [|left; reflexivity].
    repeat constructor; try discriminate; cbn; intuition lia.
  - split; exists [[120;110;45;45;98;99;104;101;114;45;107;118;97]; [101;120]]; (split; [|split; [exact F|split; [|split; [exact W|unfold zlen, wire_buecher; cbn [length]; lia]]]]); try discriminate; [left|right]; reflexivity.
Qed.
