(** UTF-8 as defined by RFC 3629 / Unicode table 3-6, independent of Utf8.v. *)
From Verif Require Import Base.

Definition scalar (c : Z) : Prop := 0 <= c <= 55295 \/ 57344 <= c <= 1114111.

(** [utf8_char c bs]: [bs] is the (shortest) UTF-8 form of scalar value [c]. *)
Inductive utf8_char : Z -> list Z -> Prop :=
| utf8_1 : forall a, 0 <= a < 128 -> utf8_char a [a]
| utf8_2 : forall a b, 0 <= a < 32 -> 0 <= b < 64 -> 128 <= 64 * a + b ->
    utf8_char (64 * a + b) [192 + a; 128 + b]
| utf8_3 : forall a b c, 0 <= a < 16 -> 0 <= b < 64 -> 0 <= c < 64 ->
    2048 <= 4096 * a + 64 * b + c -> scalar (4096 * a + 64 * b + c) ->
    utf8_char (4096 * a + 64 * b + c) [224 + a; 128 + b; 128 + c]
| utf8_4 : forall a b c d, 0 <= a < 8 -> 0 <= b < 64 -> 0 <= c < 64 -> 0 <= d < 64 ->
    65536 <= 262144 * a + 4096 * b + 64 * c + d -> scalar (262144 * a + 4096 * b + 64 * c + d) ->
    utf8_char (262144 * a + 4096 * b + 64 * c + d) [240 + a; 128 + b; 128 + c; 128 + d].

Inductive utf8 : list Z -> list Z -> Prop :=
| utf8_nil : utf8 [] []
| utf8_cons : forall c bs l s, utf8_char c bs -> utf8 l s -> utf8 (c :: l) (bs ++ s).

Definition bytes (s : list Z) : Prop := Forall (fun b => 0 <= b <= 255) s.
