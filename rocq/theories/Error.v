(** Model of lib/error.c: messages and names of the return codes. *)
From Coq Require Import String.
From Verif Require Import Base.

(** lib/error.c:46-115, idn2_strerror; _(x) is x (line 34), bindtextdomain is
    empty (line 35).  IDN2_INVALID_FLAGS has no case. *)
Definition strerror (rc : Z) : string :=
  if rc =? IDN2_OK then "success"%string else
  if rc =? IDN2_MALLOC then "out of memory"%string else
  if rc =? IDN2_NO_CODESET then "could not determine locale encoding format"%string else
  if rc =? IDN2_ICONV_FAIL then "could not convert string to UTF-8"%string else
  if rc =? IDN2_ENCODING_ERROR then "string encoding error"%string else
  if rc =? IDN2_NFC then "string could not be NFC normalized"%string else
  if rc =? IDN2_PUNYCODE_BAD_INPUT then "string contains invalid punycode data"%string else
  if rc =? IDN2_PUNYCODE_BIG_OUTPUT then "punycode encoded data will be too large"%string else
  if rc =? IDN2_PUNYCODE_OVERFLOW then "punycode conversion resulted in overflow"%string else
  if rc =? IDN2_TOO_BIG_DOMAIN then "domain name longer than 255 characters"%string else
  if rc =? IDN2_TOO_BIG_LABEL then "domain label longer than 63 characters"%string else
  if rc =? IDN2_INVALID_ALABEL then "input A-label is not valid"%string else
  if rc =? IDN2_UALABEL_MISMATCH then "input A-label and U-label does not match"%string else
  if rc =? IDN2_NOT_NFC then "string is not in Unicode NFC format"%string else
  if rc =? IDN2_2HYPHEN then "string contains forbidden two hyphens pattern"%string else
  if rc =? IDN2_HYPHEN_STARTEND then "string start/ends with forbidden hyphen"%string else
  if rc =? IDN2_LEADING_COMBINING then "string contains a forbidden leading combining character"%string else
  if rc =? IDN2_DISALLOWED then "string contains a disallowed character"%string else
  if rc =? IDN2_CONTEXTJ then "string contains a forbidden context-j character"%string else
  if rc =? IDN2_CONTEXTJ_NO_RULE then "string contains a context-j character with null rule"%string else
  if rc =? IDN2_CONTEXTO then "string contains a forbidden context-o character"%string else
  if rc =? IDN2_CONTEXTO_NO_RULE then "string contains a context-o character with null rule"%string else
  if rc =? IDN2_UNASSIGNED then "string contains unassigned code point"%string else
  if rc =? IDN2_BIDI then "string has forbidden bi-directional properties"%string else
  if rc =? IDN2_DOT_IN_LABEL then "domain label has forbidden dot (TR46)"%string else
  if rc =? IDN2_INVALID_TRANSITIONAL then "domain label has character forbidden in transitional mode (TR46)"%string else
  if rc =? IDN2_INVALID_NONTRANSITIONAL then "domain label has character forbidden in non-transitional mode (TR46)"%string else
  if rc =? IDN2_ALABEL_ROUNDTRIP_FAILED then "A-label roundtrip failed"%string else
  "Unknown error"%string.

(** lib/error.c:132-198, idn2_strerror_name; ERR2STR (line 117) is stringification. *)
Definition strerror_name (rc : Z) : string :=
  if rc =? IDN2_OK then "IDN2_OK"%string else
  if rc =? IDN2_MALLOC then "IDN2_MALLOC"%string else
  if rc =? IDN2_NO_CODESET then "IDN2_NO_NODESET"%string else
  if rc =? IDN2_ICONV_FAIL then "IDN2_ICONV_FAIL"%string else
  if rc =? IDN2_ENCODING_ERROR then "IDN2_ENCODING_ERROR"%string else
  if rc =? IDN2_NFC then "IDN2_NFC"%string else
  if rc =? IDN2_PUNYCODE_BAD_INPUT then "IDN2_PUNYCODE_BAD_INPUT"%string else
  if rc =? IDN2_PUNYCODE_BIG_OUTPUT then "IDN2_PUNYCODE_BIG_OUTPUT"%string else
  if rc =? IDN2_PUNYCODE_OVERFLOW then "IDN2_PUNYCODE_OVERFLOW"%string else
  if rc =? IDN2_TOO_BIG_DOMAIN then "IDN2_TOO_BIG_DOMAIN"%string else
  if rc =? IDN2_TOO_BIG_LABEL then "IDN2_TOO_BIG_LABEL"%string else
  if rc =? IDN2_INVALID_ALABEL then "IDN2_INVALID_ALABEL"%string else
  if rc =? IDN2_UALABEL_MISMATCH then "IDN2_UALABEL_MISMATCH"%string else
  if rc =? IDN2_INVALID_FLAGS then "IDN2_INVALID_FLAGS"%string else
  if rc =? IDN2_NOT_NFC then "IDN2_NOT_NFC"%string else
  if rc =? IDN2_2HYPHEN then "IDN2_2HYPHEN"%string else
  if rc =? IDN2_HYPHEN_STARTEND then "IDN2_HYPHEN_STARTEND"%string else
  if rc =? IDN2_LEADING_COMBINING then "IDN2_LEADING_COMBINING"%string else
  if rc =? IDN2_DISALLOWED then "IDN2_DISALLOWED"%string else
  if rc =? IDN2_CONTEXTJ then "IDN2_CONTEXTJ"%string else
  if rc =? IDN2_CONTEXTJ_NO_RULE then "IDN2_CONTEXTJ_NO_RULE"%string else
  if rc =? IDN2_CONTEXTO then "IDN2_CONTEXTO"%string else
  if rc =? IDN2_CONTEXTO_NO_RULE then "IDN2_CONTEXTO_NO_RULE"%string else
  if rc =? IDN2_UNASSIGNED then "IDN2_UNASSIGNED"%string else
  if rc =? IDN2_BIDI then "IDN2_BIDI"%string else
  if rc =? IDN2_DOT_IN_LABEL then "IDN2_DOT_IN_LABEL"%string else
  if rc =? IDN2_INVALID_TRANSITIONAL then "IDN2_INVALID_TRANSITIONAL"%string else
  if rc =? IDN2_INVALID_NONTRANSITIONAL then "IDN2_INVALID_NONTRANSITIONAL"%string else
  if rc =? IDN2_ALABEL_ROUNDTRIP_FAILED then "IDN2_ALABEL_ROUNDTRIP_FAILED"%string else
  "IDN2_UNKNOWN"%string.
