(** Packaging and cases for C63. *)
From Verif Require Import Base PunyBase Uenv DataTypes SpecUtf8 SpecPuny SpecTables SpecBidi SpecLabel SpecNfc SpecLookup SpecToAscii
  Lookup Compose Ucd UcdProofs LookupExamples.

Lemma case_compose : nfc_ok ucd /\ c_string buecher /\ c_string strasse /\
  lookup_u8 ucd (buecher ++ 46 :: strasse) 0 = Ok (xn_buecher ++ 46 :: [120;110;45;45;115;116;114;97;101;45;111;113;97]) /\
  lookup_u8 ucd strasse 0 = Ok [120;110;45;45;115;116;114;97;101;45;111;113;97].
Proof. split; [exact ucd_nfc_ok|]. split; [exact (proj1 (proj2 case_buecher))|]. split; [unfold c_string; cbv; repeat (constructor; [split; reflexivity || discriminate|]); constructor|]. split; vm_compute; reflexivity. Qed.

(** Dots at the end: an absolute name. *)
Lemma lookup_absolute : forall U, nfc_ok U -> forall a f r, c_string a -> zlen a < two64 - 1 -> lookup_u8 U a f = Ok r -> zlen r <= 253 ->
  (opt_no_tr46 f = false -> forall l, utf8 l (a ++ [46]) -> zlen (uts46_map (opt_transitional f) (opt_std3 f) l) < 255) ->
  lookup_u8 U (a ++ [46]) f = Ok (r ++ [46]).
Proof.
  intros U K a f r C L H Z M.
  assert (B : ~ bad_flags f) by (apply ToAsciiProofs.lookup_exact in H; [exact (proj1 H)|exact K|exact C|lia]). apply (lookup_compose U K a [] f (r ++ [46])); [exact C|constructor|unfold zlen in *; rewrite app_length; cbn [length]; lia|].
  exists r, []. split; [exact H|]. split.
  - apply ToAsciiProofs.lookup_exact; [exact K|constructor|reflexivity|]. split; [exact B|]. destruct (opt_no_tr46 f).
    + exists [[]], [[]]. split; [split; [discriminate|split; [repeat constructor; auto|reflexivity]]|].
      split; [constructor; [|constructor]; apply raw_ascii; [constructor|intros _ (t & E); discriminate|vm_compute; discriminate]|].
      split; [split; [discriminate|split; [repeat constructor; auto|reflexivity]]|]. left. vm_compute. discriminate.
    + exists [], [], [[]], [[]]. split; [constructor|]. split; [intros X; inversion X|]. split; [reflexivity|].
      split; [apply (nfc_ascii U K); constructor|]. split; [split; [discriminate|split; [repeat constructor; auto|reflexivity]]|].
      split; [constructor; [|constructor]|split; [split; [discriminate|split; [repeat constructor; auto|reflexivity]]|left; vm_compute; discriminate]].
      apply t46_ascii; [constructor|intros (t & E); discriminate| |vm_compute; discriminate].
      split; [apply (nfc_ascii U K); constructor|]. split; [intros (x & y & t & E); discriminate|].
      split; [split; [discriminate|intros t E; now apply app_cons_not_nil in E]|]. split; [intros (x & t & E & _); discriminate|]. constructor.
  - split; [reflexivity|]. split; [|exact M]. assert (ZL : zlen (r ++ [46]) = zlen r + 1) by (unfold zlen; rewrite app_length; cbn [length]; lia).
    rewrite ZL. destruct (Z.eq_dec (zlen r) 253); [right; split; [lia|left; reflexivity]|left; lia].
Qed.

Lemma bidi_domain_witness : exists src l ls r, lookup_u8 ucd src 0 = Ok r /\ utf8 l src /\ dotted ls l /\ bidi_domain ucd ls /\ ~ Forall (rfc5893 (ue_bidi ucd)) ls.
Proof.
  exists [49;46;215;144], [49; 46; 0x5d0], [[49]; [0x5d0]], [49; 46; 120; 110; 45; 45; 52; 100; 98].
  split; [vm_compute; reflexivity|]. split.
  - apply (utf8_cons 49 [49]); [apply utf8_1; lia|]. apply (utf8_cons 46 [46]); [apply utf8_1; lia|]. apply (utf8_cons 0x5d0 [215; 144] [] []); [|constructor].
    apply (utf8_2 23 16); lia.
  - split; [split; [discriminate|split; [repeat constructor; intros [E|[]]; discriminate|reflexivity]]|]. split.
    + apply Exists_cons_tl. apply Exists_cons_hd. apply Exists_cons_hd. vm_compute. auto.
    + intros F. apply Forall_inv in F. destruct F as (R & _). destruct R as [(c & x & E & I)|(c & x & E & I)]; injection E as <- _; vm_compute in I; intuition discriminate.
Qed.
(** DNS labels are not empty but for the root. *)
Lemma empty_label_witness : exists src r ls a b, lookup_u8 ucd src 0 = Ok r /\ dotted ls r /\ ls = a ++ [] :: b /\ b <> [].
Proof.
  exists [97;46;46;98], [97;46;46;98], [[97];[];[98]], [[97]], [[98]]. split; [vm_compute; reflexivity|].
  split; [split; [discriminate|split; [|reflexivity]]|split; [reflexivity|discriminate]].
  repeat constructor; intros H; cbn [In] in H; intuition discriminate.
Qed.
