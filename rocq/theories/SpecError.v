(** The return codes of the library: lib/idn2.h.in, enum idn2_rc and the comment above it. *)
From Coq Require Import String.
From Verif Require Import Base.

(** Each code with the name that idn2.h gives it. *)
Definition header : list (Z * string) :=
  [ (0, "IDN2_OK"%string);
    (-100, "IDN2_MALLOC"%string);
    (-101, "IDN2_NO_CODESET"%string);
    (-102, "IDN2_ICONV_FAIL"%string);
    (-200, "IDN2_ENCODING_ERROR"%string);
    (-201, "IDN2_NFC"%string);
    (-202, "IDN2_PUNYCODE_BAD_INPUT"%string);
    (-203, "IDN2_PUNYCODE_BIG_OUTPUT"%string);
    (-204, "IDN2_PUNYCODE_OVERFLOW"%string);
    (-205, "IDN2_TOO_BIG_DOMAIN"%string);
    (-206, "IDN2_TOO_BIG_LABEL"%string);
    (-207, "IDN2_INVALID_ALABEL"%string);
    (-208, "IDN2_UALABEL_MISMATCH"%string);
    (-209, "IDN2_INVALID_FLAGS"%string);
    (-300, "IDN2_NOT_NFC"%string);
    (-301, "IDN2_2HYPHEN"%string);
    (-302, "IDN2_HYPHEN_STARTEND"%string);
    (-303, "IDN2_LEADING_COMBINING"%string);
    (-304, "IDN2_DISALLOWED"%string);
    (-305, "IDN2_CONTEXTJ"%string);
    (-306, "IDN2_CONTEXTJ_NO_RULE"%string);
    (-307, "IDN2_CONTEXTO"%string);
    (-308, "IDN2_CONTEXTO_NO_RULE"%string);
    (-309, "IDN2_UNASSIGNED"%string);
    (-310, "IDN2_BIDI"%string);
    (-311, "IDN2_DOT_IN_LABEL"%string);
    (-312, "IDN2_INVALID_TRANSITIONAL"%string);
    (-313, "IDN2_INVALID_NONTRANSITIONAL"%string);
    (-314, "IDN2_ALABEL_ROUNDTRIP_FAILED"%string) ].
Definition defined (rc : Z) : Prop := In rc (map fst header).

(** What the message of a code has to mention, from the descriptions in idn2.h. *)
Definition topics : list (Z * string) :=
  [ (-100, "memory"%string);
    (-101, "encoding format"%string);
    (-102, "UTF-8"%string);
    (-200, "encoding error"%string);
    (-201, "normalized"%string);
    (-202, "invalid punycode"%string);
    (-203, "too large"%string);
    (-204, "overflow"%string);
    (-205, "name longer than 255 characters"%string);
    (-206, "label longer than 63 characters"%string);
    (-207, "A-label is not valid"%string);
    (-208, "does not match"%string);
    (-300, "not in Unicode NFC"%string);
    (-301, "two hyphens"%string);
    (-302, "start/ends"%string);
    (-303, "leading combining"%string);
    (-304, "disallowed"%string);
    (-305, "forbidden context-j"%string);
    (-306, "context-j character with null rule"%string);
    (-307, "forbidden context-o"%string);
    (-308, "context-o character with null rule"%string);
    (-309, "unassigned"%string);
    (-310, "bi-directional"%string);
    (-311, "forbidden dot"%string);
    (-312, "in transitional mode"%string);
    (-313, "in non-transitional mode"%string);
    (-314, "roundtrip failed"%string);
    (0, "success"%string) ].

(** [w] occurs in [m]. *)
Definition mentions (m w : string) : Prop := exists k, substring k (String.length w) m = w.
