(** Property C67: the error codes of the Punycode coder, exactly.
    [decode_fails] and [encode_fails] are in SpecPunyErr.v, [rfc_encodes] and [decodes_to] in SpecToAscii.v. *)
From Verif Require Import Base Puny SpecPuny SpecToAscii SpecPunyErr PunyErr PunyEncErr PunyErrTop.

Theorem C67_decode : forall s mo cap rc, 0 <= mo < 4294967295 -> mo <= cap -> zlen s < two64 ->
  (puny_decode s mo cap = Fail rc <-> decode_fails mo s rc).
Proof. exact decode_errors. Qed.
Print Assumptions C67_decode.
Example C67_decode_case :
  puny_decode [] 63 63 = Fail IDN2_PUNYCODE_BAD_INPUT /\ puny_decode [97; 33] 63 63 = Fail IDN2_PUNYCODE_BAD_INPUT /\
  puny_decode [97; 45] 63 63 = Fail IDN2_PUNYCODE_BAD_INPUT /\ puny_decode [122] 63 63 = Fail IDN2_PUNYCODE_BAD_INPUT /\
  puny_decode [57; 57; 57; 57; 57; 97] 63 63 = Fail IDN2_PUNYCODE_BAD_INPUT /\
  puny_decode [57; 57; 57; 57; 57; 57; 57; 57] 63 63 = Fail IDN2_PUNYCODE_OVERFLOW /\
  puny_decode (repeat 121 63 ++ [45; 116; 100; 97]) 63 63 = Fail IDN2_PUNYCODE_BIG_OUTPUT /\
  puny_decode (repeat 97 64) 63 63 = Fail IDN2_PUNYCODE_BIG_OUTPUT.
Proof. exact case_decode_errors. Qed.

Theorem C67_encode : forall L mo cap rc, u32_list L -> 0 <= mo <= 109 -> mo <= cap -> zlen L <= 4172415000 ->
  (puny_encode L mo cap = Fail rc <-> encode_fails mo L rc).
Proof. exact encode_errors. Qed.
Print Assumptions C67_encode.
Example C67_encode_case : u32_list (repeat 97 59 ++ [0xD800]) /\
  puny_encode (repeat 97 58 ++ [0xD800]) 59 59 = Fail IDN2_PUNYCODE_BAD_INPUT /\
  puny_encode (repeat 97 59 ++ [0xD800]) 59 59 = Fail IDN2_PUNYCODE_BIG_OUTPUT /\
  puny_encode (repeat 252 58) 59 59 = Fail IDN2_PUNYCODE_BIG_OUTPUT /\
  puny_encode (repeat 252 57) 59 59 <> Fail IDN2_PUNYCODE_BIG_OUTPUT.
Proof. exact case_encode_errors. Qed.

(** The specifications give one code, and none exactly where there is a result. *)
Theorem C67_decode_unique : forall s mo a b, 0 <= mo < 4294967295 -> zlen s < two64 -> decode_fails mo s a -> decode_fails mo s b -> a = b.
Proof. exact decode_unique. Qed.
Print Assumptions C67_decode_unique.
Theorem C67_encode_unique : forall L mo a b, u32_list L -> 0 <= mo <= 109 -> zlen L <= 4172415000 -> encode_fails mo L a -> encode_fails mo L b -> a = b.
Proof. exact encode_unique. Qed.
Print Assumptions C67_encode_unique.
Theorem C67_decode_partition : forall s, zlen s < two64 ->
  ((exists p, decodes_to s p) \/ (exists rc, decode_fails 63 s rc)) /\ ~ ((exists p, decodes_to s p) /\ (exists rc, decode_fails 63 s rc)).
Proof. exact decode_partition. Qed.
Print Assumptions C67_decode_partition.
Theorem C67_encode_partition : forall L mo, u32_list L -> 0 <= mo <= 109 -> zlen L <= 4172415000 ->
  ((exists s, Forall permitted L /\ rfc_encodes L s /\ zlen s <= mo) \/ (exists rc, encode_fails mo L rc)) /\
  ~ ((exists s, Forall permitted L /\ rfc_encodes L s /\ zlen s <= mo) /\ (exists rc, encode_fails mo L rc)).
Proof. exact encode_partition. Qed.
Print Assumptions C67_encode_partition.
