(** Case and compatibility forms of whole names; the exceptions. *)
From Coq Require Import Lia Bool.
From Verif Require Import Base PunyBase Uenv DataTypes DataTr46 SpecUtf8 SpecTables SpecLabel SpecLookup SpecNfc DataUcd DataCase Ucd UcdProofs UcdTree Gentr46 Tr46Facts
  Utf8 Utf8Proofs MapProofs BaseTop StableProofs Idna Lookup LabelProofs LookupProofs LookupTr46 LookupMisc LookupMap SpecCanon CanonProofs CanonTop CanonNfc CanonCases SpecAlike AlikeProofs.

Lemma lookup_case_forms : forall s s' l (f : Z -> list Z) fl, In f [to_lower; to_upper; to_title; to_fold] -> c_string s -> c_string s' -> utf8 l s -> utf8 (flat_map f l) s' ->
  opt_no_tr46 fl = false -> Forall (fun c => odd (opt_transitional fl) c = false \/ f c = [c]) l -> allowed l -> allowed (flat_map f l) ->
  opt_std3 fl = false \/ (std3_free l /\ std3_free (flat_map f l)) ->
  mapped_length fl l < 255 -> mapped_length fl (flat_map f l) < 255 -> lookup_u8 ucd s fl = lookup_u8 ucd s' fl.
Proof.
  intros s s' l f fl I C C' U U' N O A A' S Z Z'. apply (lookup_alike s s' l (flat_map f l)); auto. apply alike_each; auto.
  - intros c. cbn [In] in I. destruct I as [<-|[<-|[<-|[<-|[]]]]]; [apply variant_lower|apply variant_upper|apply variant_title|apply variant_fold].
  - intros E. destruct S as [S|S]; [congruence|exact S].
Qed.
Lemma lookup_nfk_forms : forall s s' l l' fl, l' = nfkc l \/ l' = nfkd l -> c_string s -> c_string s' -> utf8 l s -> utf8 l' s' -> opt_no_tr46 fl = false -> opt_std3 fl = false ->
  Forall (fun c => odd (opt_transitional fl) c = false \/ compat c = [c]) l -> allowed l -> allowed (flat_map compat l) -> iota_free (flat_map compat l) ->
  mapped_length fl l < 255 -> mapped_length fl l' < 255 -> lookup_u8 ucd s fl = lookup_u8 ucd s' fl.
Proof.
  intros s s' l l' fl E C C' U U' N S O A A' F Z Z'. apply (lookup_alike s s' l l'); auto. rewrite S. destruct (nfk_alike _ l O A A' F) as (H1 & H2). destruct E as [->| ->]; auto.
Qed.
(** Every exception is one. *)
Definition refuting (tr : bool) (c : Z) (x : list Z) : bool :=
  match tmap idna_tree tr c, tmaps idna_tree tr x with
  | Some y, Some z => forallb (good idna_tree) (c :: x) && negb (list_eqb (torder ccc_tree (flat_map (tdecomp decomp_tree) y)) (torder ccc_tree (flat_map (tdecomp decomp_tree) z)))
  | _, _ => false
  end.
Lemma refuting_ok : forall tr c x, refuting tr c x = true -> allowed (c :: x) /\ ~ canon (map1 tr false c) (uts46_map tr false x).
Proof.
  intros tr c x H. unfold refuting in H. destruct (tmap idna_tree tr c) as [y|] eqn:E1; [|discriminate H]. destruct (tmaps idna_tree tr x) as [z|] eqn:E2; [|discriminate H].
  apply tmap_ok in E1. apply tmaps_ok in E2. apply andb_true_iff in H. destruct H as (H1 & H2). split.
  - apply Forall_forall. intros d I. apply good_ok. exact (proj1 (forallb_forall _ _) H1 d I).
  - unfold uts46_map. rewrite E1, E2. intros C. apply canon_iff in C. unfold nfd in C. rewrite !torder_ok, !(flat_map_ext _ _ tdecomp_ok), C in H2.
    rewrite (proj2 (list_eqb_iff _ _) eq_refl) in H2. discriminate H2.
Qed.
Lemma odd_needed : forall tr c, odd tr c = true -> exists x, variant c x /\ allowed (c :: x) /\ ~ canon (map1 tr false c) (uts46_map tr false x).
Proof.
  intros tr c H. assert (exists x, variant c x /\ refuting tr c x = true) as (x & V & R); [|exists x; split; [exact V|now apply refuting_ok]].
  unfold odd in H. rewrite orb_true_iff, andb_true_iff in H. destruct H as [H|(T & H)].
  - apply Z.eqb_eq in H. subst. exists (to_upper 0x131). split; [apply variant_upper|]. destruct tr; vm_compute; reflexivity.
  - destruct tr; [discriminate T|]. apply existsb_exists in H. destruct H as (d & I & E). apply Z.eqb_eq in E. subst d. cbn [In] in I.
    destruct I as [<-|I]; [exists (to_fold 0xDF); split; [apply variant_fold|vm_compute; reflexivity]|].
    destruct I as [<-|I]; [exists (to_lower 0x1E9E); split; [apply variant_lower|vm_compute; reflexivity]|].
    destruct I as [<-|I]; [exists (to_upper 0x3C2); split; [apply variant_upper|vm_compute; reflexivity]|].
    repeat (destruct I as [<-|I]; [eexists; split; [apply variant_compat|vm_compute; reflexivity]|]). destruct I.
Qed.
(** "straße" and "STRASSE"; "ı" and "I"; with final sigma. *)
Definition strasse : list Z := [0x73; 0x74; 0x72; 0x61; 0xC3; 0x9F; 0x65].
Definition strasse_upper : list Z := [0x53; 0x54; 0x52; 0x41; 0x53; 0x53; 0x45].
Ltac strings := repeat constructor; lia.
Ltac utf8s := apply u8_to_u32_iff; [repeat constructor; lia|vm_compute; reflexivity].
Lemma sharp_s : exists s s' l r r', c_string s /\ c_string s' /\ utf8 l s /\ utf8 (flat_map to_upper l) s' /\ lookup_u8 ucd s 0 = Ok r /\ lookup_u8 ucd s' 0 = Ok r' /\ r <> r' /\
  lookup_u8 ucd s 4 = lookup_u8 ucd s' 4.
Proof.
  exists strasse, strasse_upper, [0x73; 0x74; 0x72; 0x61; 0xDF; 0x65]. do 2 eexists.
  split; [strings|]. split; [strings|]. split; [utf8s|]. split.
  { assert (flat_map to_upper [0x73; 0x74; 0x72; 0x61; 0xDF; 0x65] = [0x53; 0x54; 0x52; 0x41; 0x53; 0x53; 0x45]) as -> by (vm_compute; reflexivity). utf8s. }
  split; [vm_compute; reflexivity|]. split; [vm_compute; reflexivity|]. split; [intros H; discriminate H|]. vm_compute. reflexivity.
Qed.
Lemma dotless_i : exists s s' l r r', c_string s /\ c_string s' /\ utf8 l s /\ utf8 (flat_map to_upper l) s' /\
  lookup_u8 ucd s 0 = Ok r /\ lookup_u8 ucd s' 0 = Ok r' /\ r <> r' /\ lookup_u8 ucd s 4 = Ok r /\ lookup_u8 ucd s' 4 = Ok r'.
Proof.
  exists [0xC4; 0xB1], [0x49], [0x131]. do 2 eexists. split; [strings|]. split; [strings|]. split; [utf8s|]. split.
  { assert (flat_map to_upper [0x131] = [0x49]) as -> by (vm_compute; reflexivity). utf8s. }
  split; [vm_compute; reflexivity|]. split; [vm_compute; reflexivity|]. split; [intros H; discriminate H|]. split; vm_compute; reflexivity.
Qed.
