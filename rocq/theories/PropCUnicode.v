(** C97: the C text of lib/decode.c, run by the rules of C11. *)
From Coq Require Import String.
From Verif Require Import Base SpecUtf8 SpecLookup SpecUnicode SpecUniRefusal CLang CUnicode SpecCPuny SpecCUnicode CUnicodeTop CUnicodeCases.
Local Open Scope string_scope.
Local Open Scope list_scope.
Local Open Scope Z_scope.

(** idn2_to_unicode_8z4z returns, in one way only. *)
Theorem C97_returns : forall ch s, char_type ch -> c_string s -> zlen s < 4611686018427387904 -> exists r, unicode_text ch s r /\ forall r', unicode_text ch s r' -> r' = r.
Proof. exact text_exists. Qed.
Print Assumptions C97_returns.
(** What it gives is the Unicode form of the name. *)
Theorem C97_unicode : forall ch s d, char_type ch -> c_string s -> zlen s < 4611686018427387904 -> (unicode_text ch s (inr d) <-> unicode_name s d).
Proof. exact text_ok. Qed.
Print Assumptions C97_unicode.
Example C97_unicode_case : forall ch, char_type ch -> c_string buecher /\ unicode_text ch buecher (inr buecher_u) /\ unicode_text ch [] (inr []).
Proof. exact case_ok. Qed.
(** The code it fails with. *)
Theorem C97_code : forall ch s rc, char_type ch -> c_string s -> zlen s < 4611686018427387904 -> (unicode_text ch s (inl rc) <-> unicode_refused s rc).
Proof. exact text_code. Qed.
Print Assumptions C97_code.
Example C97_code_case : forall ch, char_type ch -> unicode_text ch [97; 46; 255] (inl IDN2_ENCODING_ERROR) /\ unicode_text ch (repeat 97 64) (inl IDN2_TOO_BIG_LABEL) /\
  unicode_text ch [120; 110; 45; 45; 43] (inl IDN2_PUNYCODE_BAD_INPUT) /\ unicode_text ch (repeat 46 256) (inl IDN2_TOO_BIG_DOMAIN) /\ unicode_text ch (repeat 46 255) (inr (repeat 46 255)).
Proof. exact case_code. Qed.
(** It does not matter whether char is signed. *)
Theorem C97_char : forall s r, c_string s -> zlen s < 4611686018427387904 -> (unicode_text I8 s r <-> unicode_text U8 s r).
Proof. exact text_char. Qed.
Print Assumptions C97_char.
(** What idn2_to_unicode_44i writes to out and *outlen. *)
Theorem C97_copy : forall d rest has_out has_outlen out outlen, ~ In 0 d -> Forall (fun c => 0 <= c < two32) d -> zlen d < 4611686018427387904 -> 0 <= outlen < two64 ->
  (has_out = true -> has_outlen = true -> Z.min (zlen d) outlen <= zlen out) ->
  let k := if (has_out && has_outlen)%bool then Nat.min (length d) (Z.to_nat outlen) else 0%nat in
  copy_returns d rest has_out has_outlen out outlen (map Some (firstn k d) ++ skipn k out) (if has_outlen then zlen d else outlen).
Proof. exact copy_ok. Qed.
Print Assumptions C97_copy.
Example C97_copy_case : copy_returns buecher_u [] true true (repeat None 4) 4 (map Some [98; 252; 99; 104]) 9 /\ copy_returns buecher_u [7] true true (repeat None 10) 10 (map Some buecher_u ++ [None]) 9 /\
  copy_returns buecher_u [] false true [] 4 [] 9 /\ copy_returns buecher_u [] true false [None] 4 [None] 4.
Proof. exact case_copy. Qed.
