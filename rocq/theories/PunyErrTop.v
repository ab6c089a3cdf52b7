(** Packaging for PropPunyErr.v. *)
From Verif Require Import Base Puny PunyBase SpecPuny PunyTop SpecToAscii PunyExact ToAsciiProofs SpecPunyErr PunyErr PunyEncErr.

Lemma decode_unique : forall s mo a b, 0 <= mo < 4294967295 -> zlen s < two64 -> decode_fails mo s a -> decode_fails mo s b -> a = b.
Proof. intros s mo a b M L A B. apply (decode_errors s mo mo) in A, B; try lia; auto. congruence. Qed.
Lemma encode_unique : forall L mo a b, u32_list L -> 0 <= mo <= 109 -> zlen L <= 4172415000 -> encode_fails mo L a -> encode_fails mo L b -> a = b.
Proof. intros L mo a b U M Z A B. apply (encode_errors L mo mo) in A, B; try lia; auto. congruence. Qed.
Lemma decode_partition : forall s, zlen s < two64 ->
  ((exists p, decodes_to s p) \/ (exists rc, decode_fails 63 s rc)) /\ ~ ((exists p, decodes_to s p) /\ (exists rc, decode_fails 63 s rc)).
Proof.
  intros s L. split.
  - pose proof (decode_safe s 63 63 ltac:(lia) ltac:(lia) L) as S. destruct (puny_decode s 63 63) as [p|rc| |] eqn:E; try contradiction.
    + left. exists p. now apply decodes_iff.
    + right. exists rc. apply (decode_errors s 63 63); auto; lia.
  - intros ((p & A) & (rc & B)). apply decodes_iff in A; auto. apply (decode_errors s 63 63) in B; auto; try lia. congruence.
Qed.
Lemma encode_partition : forall L mo, u32_list L -> 0 <= mo <= 109 -> zlen L <= 4172415000 ->
  ((exists s, Forall permitted L /\ rfc_encodes L s /\ zlen s <= mo) \/ (exists rc, encode_fails mo L rc)) /\
  ~ ((exists s, Forall permitted L /\ rfc_encodes L s /\ zlen s <= mo) /\ (exists rc, encode_fails mo L rc)).
Proof.
  intros L mo U M Z. split.
  - assert (M64 : 0 <= mo < two64) by (unfold two64; lia). pose proof (encode_shape L mo mo U M64 ltac:(lia)) as S. destruct (puny_encode L mo mo) as [s|rc| |] eqn:E; try contradiction.
    + left. exists s. apply (encode_iff L mo mo) in E; auto. lia.
    + right. exists rc. apply (encode_errors L mo mo); auto; lia.
  - intros ((s & A) & (rc & B)). apply (encode_iff L mo mo) in A; auto; try lia. apply (encode_errors L mo mo) in B; auto; try lia. congruence.
Qed.
Lemma case_decode_errors :
  puny_decode [] 63 63 = Fail IDN2_PUNYCODE_BAD_INPUT /\ puny_decode [97; 33] 63 63 = Fail IDN2_PUNYCODE_BAD_INPUT /\
  puny_decode [97; 45] 63 63 = Fail IDN2_PUNYCODE_BAD_INPUT /\ puny_decode [122] 63 63 = Fail IDN2_PUNYCODE_BAD_INPUT /\
  puny_decode [57; 57; 57; 57; 57; 97] 63 63 = Fail IDN2_PUNYCODE_BAD_INPUT /\
  puny_decode [57; 57; 57; 57; 57; 57; 57; 57] 63 63 = Fail IDN2_PUNYCODE_OVERFLOW /\
  puny_decode (repeat 121 63 ++ [45; 116; 100; 97]) 63 63 = Fail IDN2_PUNYCODE_BIG_OUTPUT /\
  puny_decode (repeat 97 64) 63 63 = Fail IDN2_PUNYCODE_BIG_OUTPUT.
Proof. repeat split; vm_compute; reflexivity. Qed.
Lemma case_encode_errors : u32_list (repeat 97 59 ++ [0xD800]) /\
  puny_encode (repeat 97 58 ++ [0xD800]) 59 59 = Fail IDN2_PUNYCODE_BAD_INPUT /\
  puny_encode (repeat 97 59 ++ [0xD800]) 59 59 = Fail IDN2_PUNYCODE_BIG_OUTPUT /\
  puny_encode (repeat 252 58) 59 59 = Fail IDN2_PUNYCODE_BIG_OUTPUT /\
  puny_encode (repeat 252 57) 59 59 <> Fail IDN2_PUNYCODE_BIG_OUTPUT.
Proof. split; [repeat (apply Forall_cons; [lia|]); apply Forall_nil|]. repeat split; vm_compute; try reflexivity. discriminate. Qed.
