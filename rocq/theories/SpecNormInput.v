(** IDN2_NFC_INPUT and canonical equivalence, for the modes without TR46 and
    for registration. *)
From Verif Require Import Base SpecNfc.

(** U+037E GREEK QUESTION MARK, U+1FEF GREEK VARIA and U+212A KELVIN SIGN: the
    characters that are canonically equivalent to an ASCII character. *)
Definition ascii_twin (c : Z) : Prop := c = 0x37E \/ c = 0x1FEF \/ c = 0x212A.
Definition plain_text (l : list Z) : Prop := Forall (fun c => ~ ascii_twin c /\ ~ supplementary c) l.
