(** The libidn compatibility layer of lib/idn2.h.in:342-412. *)
From Verif Require Import Base Uenv Lookup Api.

(** idn2.h.in:368-383 [Idna_rc]. *)
Definition IDNA_SUCCESS := IDN2_OK.
Definition IDNA_STRINGPREP_ERROR := IDN2_ENCODING_ERROR.
Definition IDNA_PUNYCODE_ERROR := IDN2_PUNYCODE_BAD_INPUT.
Definition IDNA_CONTAINS_NON_LDH := IDN2_ENCODING_ERROR.
Definition IDNA_CONTAINS_LDH := IDNA_CONTAINS_NON_LDH.
Definition IDNA_CONTAINS_MINUS := IDN2_ENCODING_ERROR.
Definition IDNA_INVALID_LENGTH := IDN2_DISALLOWED.
Definition IDNA_NO_ACE_PREFIX := IDN2_ENCODING_ERROR.
Definition IDNA_ROUNDTRIP_VERIFY_ERROR := IDN2_ENCODING_ERROR.
Definition IDNA_CONTAINS_ACE_PREFIX := IDN2_ENCODING_ERROR.
Definition IDNA_ICONV_ERROR := IDN2_ENCODING_ERROR.
Definition IDNA_MALLOC_ERROR := IDN2_MALLOC.
Definition IDNA_DLOPEN_ERROR := IDN2_MALLOC.

(** idn2.h.in:392-396 [Idna_flags]. *)
Definition IDNA_ALLOW_UNASSIGNED := IDN2_ALLOW_UNASSIGNED.
Definition IDNA_USE_STD3_ASCII_RULES := IDN2_USE_STD3_ASCII_RULES.

(** The flags argument of the macros as the program has it: tokens.  A number
    stands for a constant, a variable or any other primary expression. *)
Inductive token := TNum (z : Z) | TOpen | TClose | TNot | TAnd | TXor | TOr | TLAnd | TLOr | TQuestion | TColon.
Inductive expr :=
| ENum (z : Z) | ENot (a : expr) | EAnd (a b : expr) | EXor (a b : expr) | EOr (a b : expr) | ELAnd (a b : expr) | ELOr (a b : expr)
| ECond (c a b : expr).
Fixpoint value (e : expr) : Z :=
  match e with
  | ENum z => z
  | ENot a => Z.lnot (value a)
  | EAnd a b => Z.land (value a) (value b)
  | EXor a b => Z.lxor (value a) (value b)
  | EOr a b => Z.lor (value a) (value b)
  | ELAnd a b => if value a =? 0 then 0 else if value b =? 0 then 0 else 1
  | ELOr a b => if value a =? 0 then if value b =? 0 then 0 else 1 else 1
  | ECond c a b => if value c =? 0 then value b else value a
  end.
(** The grammar of C for these operators (C11 6.5): levels from the conditional
    expression (0) to primary expressions (7). *)
Inductive parses : nat -> list token -> expr -> Prop :=
| p_num : forall z, parses 7 [TNum z] (ENum z)
| p_paren : forall l e, parses 0 l e -> parses 7 (TOpen :: l ++ [TClose]) e
| p_not : forall l e, parses 6 l e -> parses 6 (TNot :: l) (ENot e)
| p_and : forall l m a b, parses 5 l a -> parses 6 m b -> parses 5 (l ++ TAnd :: m) (EAnd a b)
| p_xor : forall l m a b, parses 4 l a -> parses 5 m b -> parses 4 (l ++ TXor :: m) (EXor a b)
| p_or : forall l m a b, parses 3 l a -> parses 4 m b -> parses 3 (l ++ TOr :: m) (EOr a b)
| p_land : forall l m a b, parses 2 l a -> parses 3 m b -> parses 2 (l ++ TLAnd :: m) (ELAnd a b)
| p_lor : forall l m a b, parses 1 l a -> parses 2 m b -> parses 1 (l ++ TLOr :: m) (ELOr a b)
| p_cond : forall l m k c a b, parses 1 l c -> parses 0 m a -> parses 0 k b -> parses 0 (l ++ TQuestion :: m ++ TColon :: k) (ECond c a b)
| p_up : forall n l e, parses (S n) l e -> parses n l e.

(** idn2.h.in:398-401: the flags argument [f] of the macros becomes
    f|IDN2_NFC_INPUT|IDN2_NONTRANSITIONAL. *)
Definition macro_flags (f : list token) : list token := f ++ [TOr; TNum IDN2_NFC_INPUT; TOr; TNum IDN2_NONTRANSITIONAL].

Section Macros.
  Variable U : uenv.
  (** idn2.h.in:398-401 [idna_to_ascii_4i, _4z, _8z, _lz], with the value of the
      flags argument after expansion. *)
  Definition idna_to_ascii_4i := to_ascii_4i U.
  Definition idna_to_ascii_4z := to_ascii_4z U.
  Definition idna_to_ascii_8z := to_ascii_8z U.
  Definition idna_to_ascii_lz := to_ascii_lz U.
  (** idn2.h.in:403-408 [idna_to_unicode_...], 410-411 are other names only. *)
End Macros.
