(** C95 in the words of the specification, and cases. *)
From Coq Require Import String.
From Verif Require Import Base PunyBase Uenv Ucd UcdProofs DataTypes SpecTables SpecUtf8 SpecNfc SpecLookup SpecLabel SpecToAscii SpecRefusal Utf8 Utf8Proofs Idna Lookup LookupProofs LookupTr46 MapProofs ToAsciiProofs RefusalTop RefusalExamples LookupExamples
  CLang CLookup SpecCPuny SpecCLookup CLookupName CLookupTop.
Local Open Scope string_scope.
Local Open Scope list_scope.
Local Open Scope Z_scope.

Lemma text_accepts : forall U f s d, nfc_ok U -> c_string s -> 32 * (zlen s + 1) < two64 -> 0 <= f < 2147483648 ->
  (lookup_text U (lab_of U) f s (inr d) <-> accepts U f s d).
Proof.
  intros U f s d K C L F. rewrite <- (lookup_exact U K s f d C) by (unfold two64 in *; lia). apply (lookup_text_iff U f s K C L F).
Qed.
Lemma text_refuses : forall U f s rc, nfc_ok U -> c_string s -> 32 * (zlen s + 1) < two64 -> 0 <= f < 2147483648 -> opt_no_tr46 f = false \/ zlen s <= 1000000000 ->
  (lookup_text U (lab_of U) f s (inl rc) <-> refuses U f s rc).
Proof.
  intros U f s rc K C L F R. rewrite <- (refusal_exact U s f rc K C) by (auto; unfold two64 in *; lia). apply (lookup_text_iff U f s K C L F).
Qed.
Lemma labels_both : forall U lab f n rest ls, nfc_ok U -> 0 <= f < 2147483648 -> Forall scalar n -> ~ In 0 n -> zlen n < 1000000 -> dotted ls n ->
  (Forall (passes46 U f) ls -> labels_return U lab f n rest 0) /\ (forall rc, checks_refuse U f ls rc -> labels_return U lab f n rest rc).
Proof. intros U lab f n rest ls K F S0 N L D. split; [apply labels_pass; assumption|intros rc; apply CLookupTop.labels_refuse; assumption]. Qed.
Lemma names_cases : forall (lab : list Z -> Z -> Z + list Z) f ls, ls <> [] ->
  (exists ts, Forall2 (fun l t => lab l f = inr t) ls ts /\ (zlen (join ts) <= 253 \/ zlen (join ts) = 254 /\ last ts [0] = [])) \/
  (exists l1 ts x l2 rc, ls = l1 ++ x :: l2 /\ Forall2 (fun l t => lab l f = inr t) l1 ts /\ zlen (join ts) <= 253 /\ lab x f = inl rc) \/
  (exists l1 ts x l2 t, ls = l1 ++ x :: l2 /\ Forall2 (fun l t => lab l f = inr t) l1 ts /\ zlen (join ts) <= 253 /\ lab x f = inr t /\
     (254 < zlen (join (ts ++ [t])) \/ zlen (join (ts ++ [t])) = 254 /\ ~ (t = [] /\ l2 = []))).
Proof.
  intros lab f ls NE. destruct (asm_cases lab f ls NE) as [A|[(l1 & ts & x & l2 & A & B & C & rc & D)|A] ]; [left; exact A| |right; right; exact A].
  right; left. exists l1, ts, x, l2, rc. auto.
Qed.

Lemma case_default : forall U lab, default_returns U lab 0 0 8 /\ default_returns U lab 64 0 64 /\ default_returns U lab 12 IDN2_INVALID_FLAGS 12 /\ ~ bad_flags 0 /\ bad_flags 12.
Proof.
  intros U lab. assert (B0 : ~ bad_flags 0) by (apply not_bad; auto). assert (B64 : ~ bad_flags 64) by (apply not_bad; auto).
  split; [exact (proj2 (default_eff U lab 0 ltac:(lia)) B0)|]. split; [exact (proj2 (default_eff U lab 64 ltac:(lia)) B64)|].
  assert (B : bad_flags 12) by (left; split; reflexivity). split; [exact (proj1 (default_ok U lab 12 ltac:(lia)) B)|]. split; [exact B0|exact B].
Qed.

Lemma case_compare : forall U lab, compare_returns U lab [88;110;45;45] [120;78;45;45;97] 4 0 /\ compare_returns U lab [97;0;98] [65;0;99] 3 0 /\
  exists v, compare_returns U lab [120;110;45;91] [120;110;45;123] 4 v /\ v <> 0.
Proof.
  intros U lab. assert (Y : forall s1 s2 n, Forall (fun b => 0 <= b <= 255) s1 -> Forall (fun b => 0 <= b <= 255) s2 -> zlen s1 < two64 -> 0 <= n <= zlen s1 -> n <= zlen s2 ->
    map lower (counted (Z.to_nat n) s1) = map lower (counted (Z.to_nat n) s2) -> compare_returns U lab s1 s2 n 0).
  { intros s1 s2 n A B C D E Q. destruct (compare_ok U lab s1 s2 n A B C D E) as (v & V & W). apply W in Q. rewrite Q in V. exact V. }
  split; [|split]; [apply Y; try reflexivity; try (split; [lia|]); try (intros Q; vm_compute in Q; congruence); repeat (constructor; [lia|]); constructor..|].
  destruct (compare_ok U lab [120;110;45;91] [120;110;45;123] 4) as (v & V & W); try reflexivity; try (split; [lia|]); try (intros Q; vm_compute in Q; congruence);
    try (repeat (constructor; [lia|]); constructor). exists v. split; [exact V|]. intros Q. apply W in Q. vm_compute in Q. congruence.
Qed.
Definition mixed := [0xDF; 65].
Lemma mixed_plain : Forall (fun c => 0 < c < two32) mixed /\ 32 * (zlen mixed + 1) < two64 /\ ~ Exists (fun c => status_of c = Disallowed) mixed.
Proof.
  split; [repeat (constructor; [unfold two32; lia|]); constructor|]. split; [reflexivity|]. intros Q. unfold mixed in Q.
  repeat (apply Exists_cons in Q; destruct Q as [Q|Q]); [vm_compute in Q; congruence..|apply Exists_nil in Q; exact Q].
Qed.
Lemma mixed_map : uts46_map false false mixed = [0xDF; 97] /\ uts46_map true false mixed = [115; 115; 97] /\ status_of 128 = Disallowed.
Proof. vm_compute. auto. Qed.
Lemma case_count : forall U lab, count_returns U lab 8 mixed 0 (Some 12) /\ count_returns U lab 4 mixed 0 (Some 16) /\ count_returns U lab 8 [128] IDN2_DISALLOWED None.
Proof.
  intros U lab. destruct mixed_plain as (A & B & C). destruct mixed_map as (M1 & M2 & M3). split; [|split].
  - destruct (count_ok U lab 8 mixed ltac:(lia) A B) as (_ & X & _). change (opt_transitional 8) with false in X. change (opt_std3 8) with false in X. rewrite M1 in X. exact (X C eq_refl).
  - destruct (count_ok U lab 4 mixed ltac:(lia) A B) as (_ & X & _). change (opt_transitional 4) with true in X. change (opt_std3 4) with false in X. rewrite M2 in X. exact (X C eq_refl).
  - apply (count_ok U lab 8 [128]); [lia|constructor; [unfold two32; lia|constructor]|reflexivity|]. apply Exists_cons_hd. exact M3.
Qed.
Lemma case_write : forall U lab, write_returns U lab 8 mixed (repeat None 3) (map Some [0xDF; 97; 0]) 3 /\ write_returns U lab 4 mixed (repeat None 5) (map Some [115; 115; 97; 0] ++ [None]) 4.
Proof.
  intros U lab. destruct mixed_plain as (A & B & C). destruct mixed_map as (M1 & M2 & M3). split.
  - pose proof (write_ok U lab 8 mixed ltac:(lia) A B (repeat None 3)) as X. change (opt_transitional 8) with false in X. change (opt_std3 8) with false in X. rewrite M1 in X. apply X. reflexivity || (unfold zlen; cbn; lia).
  - pose proof (write_ok U lab 4 mixed ltac:(lia) A B (repeat None 5)) as X. change (opt_transitional 4) with true in X. change (opt_std3 4) with false in X. rewrite M2 in X. apply X. unfold zlen; cbn; lia.
Qed.
Lemma run_labels : forall lab f n rest ls r, 0 <= f < 2147483648 -> forallb (fun c => (0 <? c) && (c <? 0xD800)) n = true -> zlen n < 1000000 -> split_dots n = ls ->
  tr46_checks ucd f ls 0 = Ok r \/ tr46_checks ucd f ls 0 = Fail r -> labels_return ucd lab f n rest r.
Proof.
  intros lab f n rest ls r F B L D C. rewrite forallb_forall in B. apply dotted_iff in D. assert (SN : Forall scalar n).
  { apply Forall_forall. intros c Q. apply B in Q. apply andb_true_iff in Q. unfold scalar. lia. }
  assert (N0 : ~ In 0 n). { intros Q. apply B in Q. cbn in Q. congruence. }
  pose proof (labels_run ucd lab f n rest ls F SN N0 L D) as X. destruct C as [C|C]; rewrite C in X; exact X.
Qed.
Lemma case_labels : forall lab, labels_return ucd lab 8 [97;46;252;46] [] 0 /\ labels_return ucd lab 8 [97;45;46;98] [7] IDN2_HYPHEN_STARTEND /\
  labels_return ucd lab 8 [45;97;46;97;97;45;45;46;98] [] IDN2_2HYPHEN.
Proof.
  intros lab. repeat split; (eapply run_labels; [lia|reflexivity|reflexivity|reflexivity|]); vm_compute; auto.
Qed.

(** A label function that refuses "!" and writes everything else as 63 bytes or itself. *)
Definition toy (s : list Z) (f : Z) : Z + list Z := match s with [33] => inl (-5) | [42] => inr (repeat 120 63) | _ => inr (firstn 63 s) end.
Lemma toy_like : label_like toy.
Proof.
  intros s f B _ _. unfold toy. assert (G : Forall (fun b => 0 <= b <= 255) (firstn 63 s) /\ zlen (firstn 63 s) <= 63).
  { split; [|unfold zlen; rewrite firstn_length; lia]. apply Forall_forall. intros b Q. assert (H : In b s) by (rewrite <- (firstn_skipn 63 s); apply in_or_app; left; exact Q). rewrite Forall_forall in B. specialize (B b H). lia. }
  destruct s as [|a [|b r] ]; [exact G| |destruct a as [|[p|p|]|p]; try exact G; repeat (destruct p as [p|p|]; try exact G)].
  assert (D : a = 33 \/ a = 42 \/ a <> 33 /\ a <> 42) by lia. destruct D as [->|[->|(D & E)] ]; [lia| |].
  - split; [|reflexivity || (unfold zlen; cbn; lia)]. apply Forall_forall. intros b Q. apply repeat_spec in Q. lia.
  - destruct a as [|[p|p|]|p]; try exact G; repeat (destruct p as [p|p|]; try exact G); lia.
Qed.
Lemma case_names : forall U, label_like toy /\
  (exists rest, lookup_returns U toy 0 [97;46;98;46] 0 (map Some [97;46;98;46;0] ++ rest) (Some 5)) /\
  (exists buf, lookup_returns U toy 0 [97;46;33;46;98] (-5) buf None) /\
  (exists rest, lookup_returns U toy 0 [42;46;42;46;42;46;97] 0 (map Some (join [repeat 120 63; repeat 120 63; repeat 120 63; [97]] ++ [0]) ++ rest) (Some 194)) /\
  (exists buf, lookup_returns U toy 0 [42;46;42;46;42;46;42;46;33] IDN2_TOO_BIG_DOMAIN buf None).
Proof.
  intros U. split; [exact toy_like|]. split; [|split; [|split] ].
  - apply (lookup_done U toy toy_like 0 [97;46;98;46] [[97];[98];[]]) with (ts := [[97];[98];[]]); [repeat (constructor; [lia|]); constructor|reflexivity|now apply dotted_iff|repeat (constructor; [reflexivity|]); constructor|left; unfold zlen; cbn; lia].
  - apply (lookup_error U toy toy_like 0 [97;46;33;46;98] [[97];[33];[98]]) with (l1 := [[97]]) (ts := [[97]]) (x := [33]) (l2 := [[98]]); [repeat (constructor; [lia|]); constructor|reflexivity|now apply dotted_iff|reflexivity|repeat (constructor; [reflexivity|]); constructor|unfold zlen; cbn; lia|reflexivity].
  - apply (lookup_done U toy toy_like 0 [42;46;42;46;42;46;97] [[42];[42];[42];[97]]) with (ts := [repeat 120 63; repeat 120 63; repeat 120 63; [97]]);
      [repeat (constructor; [lia|]); constructor|reflexivity|now apply dotted_iff|repeat (constructor; [reflexivity|]); constructor|left; unfold zlen; cbn; lia].
  - apply (lookup_long U toy toy_like 0 [42;46;42;46;42;46;42;46;33] [[42];[42];[42];[42];[33]]) with (l1 := [[42];[42];[42]]) (ts := [repeat 120 63; repeat 120 63; repeat 120 63]) (x := [42]) (l2 := [[33]]) (t := repeat 120 63);
      [repeat (constructor; [lia|]); constructor|reflexivity|now apply dotted_iff|reflexivity|repeat (constructor; [reflexivity|]); constructor|unfold zlen; cbn; lia|reflexivity|left; unfold zlen; cbn; lia].
Qed.
Lemma case_whole : nfc_ok ucd /\ lookup_text ucd (lab_of ucd) 0 strasse (inr xn_strasse) /\ lookup_text ucd (lab_of ucd) 0 [194;128] (inl IDN2_DISALLOWED) /\ lookup_text ucd (lab_of ucd) 12 strasse (inl IDN2_INVALID_FLAGS).
Proof.
  split; [exact ucd_nfc_ok|]. split; [|split].
  - apply (lookup_text_iff ucd 0 strasse ucd_nfc_ok strasse_c); [reflexivity|lia|vm_compute; reflexivity].
  - apply (lookup_text_iff ucd 0 [194;128] ucd_nfc_ok); [repeat (constructor; [lia|]); constructor|reflexivity|lia|vm_compute; reflexivity].
  - apply (lookup_text_iff ucd 12 strasse ucd_nfc_ok strasse_c); [reflexivity|lia|vm_compute; reflexivity].
Qed.
