(** How the conversion functions treat their pointer arguments. *)
From Verif Require Import Base Uenv Api.

Definition function := ptr -> cell -> Z -> result.

(** All functions with a pointer to the output pointer, for any Unicode data,
    locale, and initial contents of the local variables. *)
Definition functions_null (U : uenv) (L : locale) (junk : ptr) : list function :=
  [ idn2_lookup_u8 U; idn2_lookup_ul U L; to_ascii_4z U; to_ascii_4i2 U junk; to_ascii_8z U; to_ascii_lz U L;
    to_unicode_8z4z; to_unicode_4z4z junk; to_unicode_lzlz L junk ].
Definition functions (U : uenv) (L : locale) (junk : ptr) : list function :=
  functions_null U L junk ++ [ to_unicode_8z8z junk; to_unicode_8zlz L junk ].

(** What the caller finds behind the output pointer once [v] has been handed out. *)
Definition received (o : cell) (v : list Z) : cell := match o with None => None | Some _ => Some (Some v) end.
(** A NULL input is answered with IDN2_OK and a NULL output. *)
Definition null_input (F : function) : Prop :=
  forall p flags, F None (Some p) flags = Ok (IDN2_OK, Some None) /\ F None None flags = Ok (IDN2_OK, None).
(** A NULL output pointer changes nothing but the delivery of the result. *)
Definition null_output (F : function) : Prop :=
  forall i p flags rc c, F i (Some p) flags = Ok (rc, c) -> F i None flags = Ok (rc, None).
(** An error leaves the output pointer alone. *)
Definition untouched_on_error (F : function) : Prop :=
  forall i o flags rc o', F i o flags = Ok (rc, o') -> rc <> IDN2_OK -> o' = o.
(** Success on a non-NULL input delivers a non-NULL string, the same whatever
    the output pointer held before. *)
Definition delivers (F : function) : Prop :=
  forall s p flags c, F (Some s) (Some p) flags = Ok (IDN2_OK, c) ->
    exists r, c = Some (Some r) /\ forall q, F (Some s) (Some q) flags = Ok (IDN2_OK, Some (Some r)).
