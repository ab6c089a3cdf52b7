(** Host names: labels of letters, digits and hyphens (RFC 952, RFC 1123
    section 2.1; UTS #46 calls the rule UseSTD3ASCIIRules), written without
    reference to the model. *)
From Verif Require Import Base Uenv DataTypes Tables SpecTables SpecPuny SpecLookup SpecRegister.

(** A host-name label in lower case; "--" in the third and fourth place is
    kept for A-labels (RFC 5890 section 2.3.1). *)
Definition host_label (d : list Z) : Prop :=
  d <> [] /\ zlen d <= 63 /\ Forall lower_ldh d /\
  (forall r, d <> 45 :: r) /\ (forall r, d <> r ++ [45]) /\
  (forall a b r, d = a :: b :: 45 :: 45 :: r -> a = 120 /\ b = 110).

(** The labels of a name that the STD3 rules allow; libidn2 lets empty labels
    through. *)
Definition host_labels (ds : list (list Z)) : Prop := Forall (fun d => d = [] \/ host_label d) ds.

(** What is left of an ASCII name: lower-cased, and without the characters that
    are not letters, digits, hyphens or dots. *)
Definition kept_char (c : Z) : bool :=
  ((97 <=? c) && (c <=? 122)) || ((48 <=? c) && (c <=? 57)) || (c =? 45) || (c =? 46).
Definition kept (s : list Z) : list Z := filter kept_char (map lower s).

(** Normalisation makes no upper-case letter and no underscore, but of the same
    character or of one that the mapping step replaces. *)
Definition nfc_case (U : uenv) : Prop := forall l m c, ue_nfc U l = Some m -> In c m -> c = 95 \/ 65 <= c <= 90 ->
  exists x, In x l /\ (x = c \/ status_of x = Mapped).
