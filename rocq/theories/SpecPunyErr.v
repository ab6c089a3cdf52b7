(** The error codes of the Punycode decoder, from RFC 3492 sections 6.2 and 6.4
    and the limits of the library: integers up to 2^32 - 1, code points up to
    10FFFF other than high surrogates, and room for [mo] code points. *)
From Verif Require Import Base SpecPuny SpecToAscii.

(** [rfc_more bias k s v w]: digits from position [k] on that all ask for a further
    digit; they are worth [v], and the next digit has weight [w]. *)
Inductive rfc_more (bias : Z) : Z -> list Z -> Z -> Z -> Prop :=
| rm_nil : forall k, rfc_more bias k [] 0 1
| rm_cons : forall k c d s v w, rfc_digit c d -> rfc_t k bias <= d -> rfc_more bias (k + 36) s v w ->
    rfc_more bias k (c :: s) (d + (36 - rfc_t k bias) * v) ((36 - rfc_t k bias) * w).

Definition max32 : Z := 4294967295.

(** The integer at the head of [s], added to [i], or the weight of its next digit, does not fit in 32 bits. *)
Inductive overflows (bias i : Z) : list Z -> Prop :=
| ov_more : forall s rest v w, rfc_more bias 36 s v w -> s <> [] -> max32 < i + v \/ max32 < w -> overflows bias i (s ++ rest)
| ov_last : forall s rest q, rfc_varint bias 36 s q -> max32 < i + q -> overflows bias i (s ++ rest).

(** [rfc_fails mo o n i bias s rc]: from the state (n, i, bias) with output [o], reading [s] ends with [rc]. *)
Inductive rfc_fails (mo : Z) : list Z -> Z -> Z -> Z -> list Z -> Z -> Prop :=
| rf_overflow : forall o n i bias s, overflows bias i s -> rfc_fails mo o n i bias s IDN2_PUNYCODE_OVERFLOW
| rf_truncated : forall o n i bias s v w, rfc_more bias 36 s v w -> s <> [] -> ~ overflows bias i s ->
    rfc_fails mo o n i bias s IDN2_PUNYCODE_BAD_INPUT
| rf_wraps : forall o n i bias s rest q, rfc_varint bias 36 s q -> ~ overflows bias i (s ++ rest) ->
    max32 < n + (i + q) / (zlen o + 1) -> rfc_fails mo o n i bias (s ++ rest) IDN2_PUNYCODE_OVERFLOW
| rf_forbidden : forall o n i bias s rest q n', rfc_varint bias 36 s q -> ~ overflows bias i (s ++ rest) ->
    n' = n + (i + q) / (zlen o + 1) -> n' <= max32 -> ~ permitted n' -> rfc_fails mo o n i bias (s ++ rest) IDN2_PUNYCODE_BAD_INPUT
| rf_full : forall o n i bias s rest q n', rfc_varint bias 36 s q -> ~ overflows bias i (s ++ rest) ->
    n' = n + (i + q) / (zlen o + 1) -> permitted n' -> mo <= zlen o -> rfc_fails mo o n i bias (s ++ rest) IDN2_PUNYCODE_BIG_OUTPUT
| rf_step : forall o n i bias s rest q bias' a b n' i' rc, rfc_varint bias 36 s q -> ~ overflows bias i (s ++ rest) ->
    n' = n + (i + q) / (zlen o + 1) -> i' = (i + q) mod (zlen o + 1) -> permitted n' -> zlen o < mo ->
    o = a ++ b -> zlen a = i' -> rfc_adapt q (zlen o + 1) (i =? 0) bias' ->
    rfc_fails mo (a ++ n' :: b) n' (i' + 1) bias' rest rc -> rfc_fails mo o n i bias (s ++ rest) rc.

(** [decode_fails mo s rc]: the string [s] is refused with [rc]. *)
Inductive decode_fails (mo : Z) : list Z -> Z -> Prop :=
| df_empty : decode_fails mo [] IDN2_PUNYCODE_BAD_INPUT
| df_character : forall s, ~ Forall ldh_or_underscore s -> decode_fails mo s IDN2_PUNYCODE_BAD_INPUT
| df_delimiter : forall bs t, Forall ldh_or_underscore (bs ++ 45 :: t) -> ~ In 45 t -> bs = [] \/ t = [] ->
    decode_fails mo (bs ++ 45 :: t) IDN2_PUNYCODE_BAD_INPUT
| df_full : forall bs t, Forall ldh_or_underscore (bs ++ 45 :: t) -> ~ In 45 t -> bs <> [] -> t <> [] -> mo <= zlen bs ->
    decode_fails mo (bs ++ 45 :: t) IDN2_PUNYCODE_BIG_OUTPUT
| df_delim : forall bs t rc, Forall ldh_or_underscore (bs ++ 45 :: t) -> ~ In 45 t -> bs <> [] -> t <> [] -> zlen bs < mo ->
    rfc_fails mo bs 128 0 72 (map canon_char t) rc -> decode_fails mo (bs ++ 45 :: t) rc
| df_plain : forall s rc, Forall ldh_or_underscore s -> ~ In 45 s -> rfc_fails mo [] 128 0 72 (map canon_char s) rc -> decode_fails mo s rc.

(** [encode_fails mo L rc]: the label [L] is refused with [rc] when there is room for [mo] bytes.  The input is
    examined from the left; ASCII characters are copied, with one byte kept for the delimiter. *)
Inductive encode_fails (mo : Z) (L : list Z) : Z -> Prop :=
| ef_forbidden : forall a c b, L = a ++ c :: b -> Forall permitted a -> ~ permitted c ->
    ascii_part a = [] \/ zlen (ascii_part a) + 1 <= mo -> encode_fails mo L IDN2_PUNYCODE_BAD_INPUT
| ef_full : forall a c b, L = a ++ c :: b -> Forall permitted a -> 0 <= c < 128 ->
    mo < zlen (ascii_part a) + 2 -> encode_fails mo L IDN2_PUNYCODE_BIG_OUTPUT
| ef_long : Forall permitted L -> (forall e, rfc_encodes L e -> mo < zlen e) -> encode_fails mo L IDN2_PUNYCODE_BIG_OUTPUT.
