(** Property C68: why ToUnicode refuses a name, exactly.
    [unicode_refused], [unicode4_refused] and [unicode8_refused] are in SpecUniRefusal.v, [unicode_name] in SpecUnicode.v. *)
From Verif Require Import Base SpecUtf8 SpecLookup SpecUnicode SpecApi Api SpecUniRefusal UniRefusal UniRefusalTop.

Theorem C68_8z4z : forall o f s rc, c_string s -> zlen s < two64 -> rc <> IDN2_OK ->
  ((exists o', to_unicode_8z4z (Some s) o f = Ok (rc, o')) <-> unicode_refused s rc).
Proof. exact refused_8z4z. Qed.
Print Assumptions C68_8z4z.
Example C68_8z4z_case : c_string (l63 ++ 46 :: l63 ++ 46 :: l63 ++ 46 :: l63 ++ [46; 255]) /\
  unicode (l63 ++ 46 :: l63 ++ 46 :: l63 ++ 46 :: l63 ++ [46; 255]) = Fail IDN2_TOO_BIG_DOMAIN /\
  unicode (l63 ++ 46 :: l63 ++ 46 :: l63 ++ 46 :: 255 :: l63) = Fail IDN2_ENCODING_ERROR /\
  unicode ([88; 110; 45; 45; 33] ++ 46 :: repeat 97 64) = Fail IDN2_PUNYCODE_BAD_INPUT /\
  unicode (repeat 97 64 ++ 46 :: [88; 110; 45; 45; 33]) = Fail IDN2_TOO_BIG_LABEL /\
  unicode [120; 110; 45; 45; 57; 57; 57; 57; 57; 57; 57; 57] = Fail IDN2_PUNYCODE_OVERFLOW /\
  unicode ([120; 110; 45; 45] ++ repeat 97 64) = Fail IDN2_PUNYCODE_BIG_OUTPUT.
Proof. exact case_refused. Qed.

Theorem C68_8z8z : forall j o f s rc, c_string s -> zlen s < two64 -> rc <> IDN2_OK ->
  ((exists o', to_unicode_8z8z j (Some s) o f = Ok (rc, o')) <-> unicode8_refused s rc).
Proof. exact refused_8z8z. Qed.
Print Assumptions C68_8z8z.
Theorem C68_4z4z : forall j o f l rc, u32_string l -> zlen l < 4611686018427387904 -> rc <> IDN2_OK ->
  ((exists o', to_unicode_4z4z j (Some l) o f = Ok (rc, o')) <-> unicode4_refused l rc).
Proof. exact refused_4z4z. Qed.
Print Assumptions C68_4z4z.
Theorem C68_44i : forall j a n f l rc, u32_string l -> zlen l < 4611686018427387904 -> 0 <= n <= zlen a -> rc <> IDN2_OK ->
  ((exists a' n', to_unicode_44i j (Some l) (Some a) (Some n) f = Ok (rc, a', n')) <-> unicode4_refused l rc).
Proof. exact refused_44i. Qed.
Print Assumptions C68_44i.
Example C68_variants_case : c_string [120;110;45;45;114;52;57;98] /\ unicode_name [120;110;45;45;114;52;57;98] [56320] /\
  unicode8_refused [120;110;45;45;114;52;57;98] IDN2_ENCODING_ERROR /\ unicode4_refused [97; 55296] IDN2_ENCODING_ERROR.
Proof. exact case_surrogate. Qed.

(** The specification gives one code, and none exactly where there is a result. *)
Theorem C68_nonzero : forall s rc, c_string s -> zlen s < two64 -> unicode_refused s rc -> rc <> IDN2_OK.
Proof. exact refused_nz. Qed.
Print Assumptions C68_nonzero.
Theorem C68_unique : forall s a b, c_string s -> zlen s < two64 -> unicode_refused s a -> unicode_refused s b -> a = b.
Proof. exact refused_unique. Qed.
Print Assumptions C68_unique.
Theorem C68_partition : forall s, c_string s -> zlen s < two64 ->
  ((exists r, unicode_name s r) \/ (exists rc, unicode_refused s rc)) /\ ~ ((exists r, unicode_name s r) /\ (exists rc, unicode_refused s rc)).
Proof. exact refused_partition. Qed.
Print Assumptions C68_partition.
