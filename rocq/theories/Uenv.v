(** The Unicode facts libidn2 asks libunistring for.  libunistring is external
    code: the model takes it as a parameter, and theorems hold for every
    [uenv] (subject to the facts about NFC they name). *)
From Verif Require Import Base.
From Coq Require String.



(** uc_bidi_category (unictype.h, the UC_BIDI constants). *)
Inductive bidi_class :=
| UC_BIDI_L | UC_BIDI_LRE | UC_BIDI_LRO | UC_BIDI_R | UC_BIDI_AL | UC_BIDI_RLE | UC_BIDI_RLO
| UC_BIDI_PDF | UC_BIDI_EN | UC_BIDI_ES | UC_BIDI_ET | UC_BIDI_AN | UC_BIDI_CS | UC_BIDI_NSM
| UC_BIDI_BN | UC_BIDI_B | UC_BIDI_S | UC_BIDI_WS | UC_BIDI_ON
| UC_BIDI_LRI | UC_BIDI_RLI | UC_BIDI_FSI | UC_BIDI_PDI.
Definition bidi_eqb (a b : bidi_class) : bool :=
  if (ltac:(decide equality) : {a = b} + {a <> b}) then true else false.

(** uc_joining_type (the UC_JOINING_TYPE constants). *)
Inductive joining := UC_JOINING_TYPE_U | UC_JOINING_TYPE_T | UC_JOINING_TYPE_C
| UC_JOINING_TYPE_L | UC_JOINING_TYPE_R | UC_JOINING_TYPE_D.
Definition joining_eqb (a b : joining) : bool :=
  if (ltac:(decide equality) : {a = b} + {a <> b}) then true else false.

Record uenv := Uenv {
  ue_ccc : Z -> Z;                       (* uc_combining_class *)
  ue_bidi : Z -> bidi_class;             (* uc_bidi_category *)
  ue_join : Z -> joining;                (* uc_joining_type *)
  ue_mark : Z -> bool;                   (* uc_is_general_category (_, UC_CATEGORY_M) *)
  ue_script : Z -> option String.string;        (* uc_script (_)->name; None: no script *)
  ue_nfc : list Z -> option (list Z)     (* u32_normalize (UNINORM_NFC, ...); None: NULL, errno <> ENOMEM *)
}.

(** UC_CCC_VR (unictype.h). *)
Definition UC_CCC_VR : Z := 9.
