(** Common vocabulary of the model: outcomes, machine integers, strings. *)
From Coq Require Export ZArith List Bool Lia.
Export ListNotations.
Global Open Scope Z_scope.

(** Outcome of a modelled C function.
    [Ok a]    the function returned IDN2_OK with result [a];
    [Fail rc] it returned the error code [rc];
    [Undef]   it ran into undefined behaviour (out-of-bounds access,
              division by zero, missing terminator);
    [NoFuel]  the recursion bound of the model was exhausted.
    The last two are excluded by theorems. *)
Inductive out (A : Type) : Type :=
| Ok (a : A)
| Fail (rc : Z)
| Undef
| NoFuel.
Arguments Ok {A}. Arguments Fail {A}. Arguments Undef {A}. Arguments NoFuel {A}.

Definition bind {A B} (m : out A) (f : A -> out B) : out B :=
  match m with
  | Ok a => f a
  | Fail rc => Fail rc
  | Undef => Undef
  | NoFuel => NoFuel
  end.
Notation "'let*' x ':=' e 'in' k" := (bind e (fun x => k))
  (at level 200, x pattern, e at level 100, k at level 200).

(** A definite outcome: neither undefined behaviour nor a model artefact. *)
Definition safe {A} (m : out A) : Prop :=
  match m with Ok _ => True | Fail _ => True | Undef => False | NoFuel => False end.

(** Return code as seen by the caller (0 = IDN2_OK). *)
Definition rc_of {A} (m : out A) : option Z :=
  match m with Ok _ => Some 0 | Fail rc => Some rc | _ => None end.

(** Machine arithmetic: uint32_t and (64-bit) size_t. *)
Definition two32 : Z := 4294967296.
Definition maxint : Z := 4294967295.
Definition two64 : Z := 18446744073709551616.
Definition u32 (x : Z) : Z := x mod two32.
Definition u64 (x : Z) : Z := x mod two64.

Global Arguments u32 : simpl never.
Global Arguments u64 : simpl never.

Definition zlen {A} (l : list A) : Z := Z.of_nat (length l).

Global Arguments zlen : simpl never.

(** Checked array read. *)
Definition rd (l : list Z) (i : Z) : out Z :=
  if i <? 0 then Undef else
  match nth_error l (Z.to_nat i) with Some x => Ok x | None => Undef end.

(** Checked append to a buffer of capacity [cap] holding [o] so far. *)
Definition put (cap : Z) (o : list Z) (x : Z) : out (list Z) :=
  if zlen o <? cap then Ok (o ++ [x]) else Undef.

(** Error codes, lib/idn2.h.in enum idn2_rc. *)
Definition IDN2_OK := 0.
Definition IDN2_MALLOC := -100.
Definition IDN2_NO_CODESET := -101.
Definition IDN2_ICONV_FAIL := -102.
Definition IDN2_ENCODING_ERROR := -200.
Definition IDN2_NFC := -201.
Definition IDN2_PUNYCODE_BAD_INPUT := -202.
Definition IDN2_PUNYCODE_BIG_OUTPUT := -203.
Definition IDN2_PUNYCODE_OVERFLOW := -204.
Definition IDN2_TOO_BIG_DOMAIN := -205.
Definition IDN2_TOO_BIG_LABEL := -206.
Definition IDN2_INVALID_ALABEL := -207.
Definition IDN2_UALABEL_MISMATCH := -208.
Definition IDN2_INVALID_FLAGS := -209.
Definition IDN2_NOT_NFC := -300.
Definition IDN2_2HYPHEN := -301.
Definition IDN2_HYPHEN_STARTEND := -302.
Definition IDN2_LEADING_COMBINING := -303.
Definition IDN2_DISALLOWED := -304.
Definition IDN2_CONTEXTJ := -305.
Definition IDN2_CONTEXTJ_NO_RULE := -306.
Definition IDN2_CONTEXTO := -307.
Definition IDN2_CONTEXTO_NO_RULE := -308.
Definition IDN2_UNASSIGNED := -309.
Definition IDN2_BIDI := -310.
Definition IDN2_DOT_IN_LABEL := -311.
Definition IDN2_INVALID_TRANSITIONAL := -312.
Definition IDN2_INVALID_NONTRANSITIONAL := -313.
Definition IDN2_ALABEL_ROUNDTRIP_FAILED := -314.

(** IDN2_LABEL_MAX_LENGTH, IDN2_DOMAIN_MAX_LENGTH: lib/idn2.h.in. *)
Definition LABEL_MAX : Z := 63.
Definition DOMAIN_MAX : Z := 255.
