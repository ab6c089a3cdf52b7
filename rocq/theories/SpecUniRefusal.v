(** Why ToUnicode refuses a name. *)
From Verif Require Import Base SpecPuny SpecUtf8 SpecLookup SpecPunyErr SpecUnicode.

(** One label. *)
Inductive no_unicode (s : list Z) : Z -> Prop :=
| nu_ace : forall t rc, ace_label s t -> decode_fails 63 t rc -> no_unicode s rc
| nu_utf8 : (~ exists t, ace_label s t) -> (forall l, ~ utf8 l s) -> no_unicode s IDN2_ENCODING_ERROR
| nu_long : forall l, (~ exists t, ace_label s t) -> utf8 l s -> 63 < zlen l -> no_unicode s IDN2_TOO_BIG_LABEL.

(** Labels, each followed by a full stop. *)
Fixpoint stopped (rs : list (list Z)) : list Z :=
  match rs with [] => [] | r :: rs => r ++ 46 :: stopped rs end.

(** The first label of [s] that has no Unicode form, or with which the result has more than 255 code points. *)
Inductive unicode_refused (s : list Z) : Z -> Prop :=
| ur_label : forall a x b rs rc, dotted (a ++ x :: b) s -> Forall2 unicode_of a rs -> zlen (stopped rs) <= 255 -> no_unicode x rc ->
    unicode_refused s rc
| ur_last : forall a x rs r, dotted (a ++ [x]) s -> Forall2 unicode_of a rs -> zlen (stopped rs) <= 255 -> unicode_of x r ->
    255 < zlen (stopped rs ++ r) -> unicode_refused s IDN2_TOO_BIG_DOMAIN
| ur_total : forall a x b rs r, dotted (a ++ x :: b) s -> b <> [] -> Forall2 unicode_of a rs -> zlen (stopped rs) <= 255 -> unicode_of x r ->
    255 < zlen (stopped (rs ++ [r])) -> unicode_refused s IDN2_TOO_BIG_DOMAIN.

(** 4z4z: the 32-bit string is first written as UTF-8. *)
Inductive unicode4_refused (l : list Z) : Z -> Prop :=
| u4_encode : (forall s, ~ utf8 l s) -> unicode4_refused l IDN2_ENCODING_ERROR
| u4_name : forall s rc, utf8 l s -> unicode_refused s rc -> unicode4_refused l rc.
(** 8z8z: the result is written as UTF-8. *)
Inductive unicode8_refused (s : list Z) : Z -> Prop :=
| u8_name : forall rc, unicode_refused s rc -> unicode8_refused s rc
| u8_encode : forall r, unicode_name s r -> (forall b, ~ utf8 r b) -> unicode8_refused s IDN2_ENCODING_ERROR.
