(** Packaging for PropUniRefusal.v. *)
From Verif Require Import Base Uenv SpecUtf8 SpecPuny SpecLookup SpecUnicode SpecApi Utf8 Utf8Proofs Lookup MapProofs LookupTr46 LookupIdem LookupProofs
  BaseTop Api ApiProofs DecodeProofs SpecPunyErr SpecUniRefusal UniRefusal LookupExamples ApiExamples.

Section Variants.
  Variables (j : ptr) (o : cell) (f : Z).

  Lemma refused_nz : forall s rc, c_string s -> zlen s < two64 -> unicode_refused s rc -> rc <> IDN2_OK.
  Proof. intros s rc C L H. apply unicode_fail in H; auto. exact (nz_unicode s rc H). Qed.

  Lemma refused_8z4z : forall s rc, c_string s -> zlen s < two64 -> rc <> IDN2_OK ->
    ((exists o', to_unicode_8z4z (Some s) o f = Ok (rc, o')) <-> unicode_refused s rc).
  Proof.
    intros s rc C L N. rewrite <- unicode_fail by auto. unfold to_unicode_8z4z. split.
    - intros (o' & H). destruct (unicode s) as [r|e| |]; cbn [deliver] in H; congruence.
    - intros ->. exists o. reflexivity.
  Qed.
  Lemma refused_4z4z : forall l rc, u32_string l -> zlen l < 4611686018427387904 -> rc <> IDN2_OK ->
    ((exists o', to_unicode_4z4z j (Some l) o f = Ok (rc, o')) <-> unicode4_refused l rc).
  Proof.
    intros l rc N L NZ. assert (D : (exists s, utf8 l s) \/ ~ exists s, utf8 l s).
    { destruct (u32_to_u8 l) as [s|] eqn:E; [left; exists s; now apply u32_to_u8_iff|right; intros (s & H); apply u32_to_u8_iff in H; congruence]. }
    destruct D as [(s & H)|H].
    - assert (C : c_string s) by (apply (u32_c_string l); auto; now apply u32_no0).
      assert (LS : zlen s < two64) by (apply utf8_len in H; unfold two64; lia).
      rewrite (unicode_4z4z j l s) by auto. rewrite refused_8z4z by auto. split; [now apply u4_name|].
      intros [X|s' r H' X]; [destruct (X s H)|]. now rewrite (utf8_fun l s s') by auto.
    - rewrite unicode_4z4z_bad by auto. split.
      + intros (o' & X). assert (rc = IDN2_ENCODING_ERROR) as -> by congruence. apply u4_encode. eauto.
      + intros [_|s r X _]; [eauto|]. destruct H. eauto.
  Qed.
  Lemma refused_8z8z : forall s rc, c_string s -> zlen s < two64 -> rc <> IDN2_OK ->
    ((exists o', to_unicode_8z8z j (Some s) o f = Ok (rc, o')) <-> unicode8_refused s rc).
  Proof.
    intros s rc C L NZ. pose proof (unicode_8z8z j s o f C L) as X. destruct (unicode s) as [r|e| |] eqn:E; try contradiction.
    - assert (NR : forall c, ~ unicode_refused s c) by (intros c H; apply unicode_fail in H; auto; congruence).
      assert (UQ : forall q, unicode_name s q -> q = r) by (intros q Q; apply unicode_iff in Q; auto; congruence).
      apply unicode_iff in E; auto. destruct X as (X1 & X2). destruct (u32_to_u8 r) as [b|] eqn:V.
      + apply u32_to_u8_iff in V. rewrite (X1 b V). split; [intros (o' & H); congruence|].
        intros [c H|q Q H]; [destruct (NR c H)|]. rewrite (UQ q Q) in H. destruct (H b V).
      + assert (NB : ~ exists b, utf8 r b) by (intros (b & H); apply u32_to_u8_iff in H; congruence). rewrite (X2 NB). split.
        * intros (o' & H). assert (rc = IDN2_ENCODING_ERROR) as -> by congruence. apply (u8_encode s r); eauto.
        * intros [c H|q Q H]; [destruct (NR c H)|eauto].
    - rewrite X. pose proof E as E'. apply unicode_fail in E'; auto. split.
      + intros (o' & H). assert (rc = e) as -> by congruence. now apply u8_name.
      + intros [c H|q Q H]; [|apply unicode_iff in Q; auto; congruence]. apply unicode_fail in H; auto. exists o. congruence.
  Qed.
End Variants.
Lemma refused_44i : forall j a n f l rc, u32_string l -> zlen l < 4611686018427387904 -> 0 <= n <= zlen a -> rc <> IDN2_OK ->
  ((exists a' n', to_unicode_44i j (Some l) (Some a) (Some n) f = Ok (rc, a', n')) <-> unicode4_refused l rc).
Proof.
  intros j a n f l rc N L A NZ. rewrite <- (refused_4z4z j (Some j) f l rc) by auto. rewrite f_4z4z, f_44i. 
  set (m := utf8_in _ _). pose proof (unicode_44i_safe j l (Some a) (Some n) f L A) as S. rewrite f_44i in S. fold m in S.
  destruct m as [r|e| |]; cbn [deliver]; cbv zeta in *.
  - destruct (copy_to _ _ _); cbn [bind] in *; try contradiction; split; intros X; [destruct X as (? & ? & X)|destruct X as (? & X)|destruct X as (? & ? & X)|destruct X as (? & X)]; congruence.
  - split; [intros (? & ? & X)|intros (? & X)]; [exists (Some j)|exists (Some a), (Some n)]; congruence.
  - split; [intros (? & ? & X)|intros (? & X)]; discriminate.
  - split; [intros (? & ? & X)|intros (? & X)]; discriminate.
Qed.

Lemma refused_unique : forall s a b, c_string s -> zlen s < two64 -> unicode_refused s a -> unicode_refused s b -> a = b.
Proof. intros s a b C L A B. apply unicode_fail in A, B; auto. congruence. Qed.
Lemma refused_partition : forall s, c_string s -> zlen s < two64 ->
  ((exists r, unicode_name s r) \/ (exists rc, unicode_refused s rc)) /\ ~ ((exists r, unicode_name s r) /\ (exists rc, unicode_refused s rc)).
Proof.
  intros s C L. split.
  - pose proof (unicode_safe s C L) as S. destruct (unicode s) as [r|rc| |] eqn:E; try contradiction.
    + left. exists r. now apply unicode_iff.
    + right. exists rc. now apply unicode_fail.
  - intros ((r & A) & (rc & B)). apply unicode_iff in A; auto. apply unicode_fail in B; auto. congruence.
Qed.

Definition l63 := repeat 97 63.
Lemma case_refused : c_string (l63 ++ 46 :: l63 ++ 46 :: l63 ++ 46 :: l63 ++ [46; 255]) /\
  unicode (l63 ++ 46 :: l63 ++ 46 :: l63 ++ 46 :: l63 ++ [46; 255]) = Fail IDN2_TOO_BIG_DOMAIN /\
  unicode (l63 ++ 46 :: l63 ++ 46 :: l63 ++ 46 :: 255 :: l63) = Fail IDN2_ENCODING_ERROR /\
  unicode ([88; 110; 45; 45; 33] ++ 46 :: repeat 97 64) = Fail IDN2_PUNYCODE_BAD_INPUT /\
  unicode (repeat 97 64 ++ 46 :: [88; 110; 45; 45; 33]) = Fail IDN2_TOO_BIG_LABEL /\
  unicode [120; 110; 45; 45; 57; 57; 57; 57; 57; 57; 57; 57] = Fail IDN2_PUNYCODE_OVERFLOW /\
  unicode ([120; 110; 45; 45] ++ repeat 97 64) = Fail IDN2_PUNYCODE_BIG_OUTPUT.
Proof. split; [unfold c_string; repeat (apply Forall_cons; [lia|]); apply Forall_nil|]. repeat split; vm_compute; reflexivity. Qed.
(** "xn--r49b" is a surrogate, which has no UTF-8 form: only 8z8z refuses it. *)
Lemma case_surrogate : c_string [120;110;45;45;114;52;57;98] /\ unicode_name [120;110;45;45;114;52;57;98] [56320] /\
  unicode8_refused [120;110;45;45;114;52;57;98] IDN2_ENCODING_ERROR /\ unicode4_refused [97; 55296] IDN2_ENCODING_ERROR.
Proof.
  assert (C : c_string [120;110;45;45;114;52;57;98]) by (unfold c_string; repeat (apply Forall_cons; [lia|]); apply Forall_nil).
  assert (N : unicode_name [120;110;45;45;114;52;57;98] [56320]) by (apply unicode_iff; [exact C|reflexivity|vm_compute; reflexivity]).
  split; [exact C|]. split; [exact N|]. split.
  - apply (u8_encode _ [56320] N). intros b H. apply u32_to_u8_iff in H. discriminate.
  - apply u4_encode. intros b H. apply u32_to_u8_iff in H. discriminate.
Qed.
