(** RFC 5893 section 2, the Bidi rule, over an arbitrary assignment of Bidi
    classes to code points. *)
From Verif Require Import Base Uenv.

Section SpecBidi.
  Variable cls : Z -> bidi_class.
  Definition class_in (s : list bidi_class) (c : Z) : Prop := In (cls c) s.

  (** "An RTL label is a label that contains at least one character of type R,
      AL, or AN." *)
  Definition has_rtl (l : list Z) : Prop := Exists (class_in [UC_BIDI_R; UC_BIDI_AL; UC_BIDI_AN]) l.

  Definition starts (s : list bidi_class) (l : list Z) : Prop := exists c r, l = c :: r /\ class_in s c.
  (** "the end of the label must be a character with [one of these] properties,
      followed by zero or more characters with Bidi property NSM". *)
  Definition ends (s : list bidi_class) (l : list Z) : Prop :=
    exists a c n, l = a ++ c :: n /\ class_in s c /\ Forall (class_in [UC_BIDI_NSM]) n.
  (** What the code checks instead: only the last character matters. *)
  Definition ends_weak (s : list bidi_class) (l : list Z) : Prop :=
    exists a c, l = a ++ [c] /\ class_in (UC_BIDI_NSM :: s) c.

  Definition rtl_start := starts [UC_BIDI_R; UC_BIDI_AL].
  Definition ltr_start := starts [UC_BIDI_L].
  Definition rule1 l := rtl_start l \/ ltr_start l.
  Definition rule2 l := rtl_start l ->
    Forall (class_in [UC_BIDI_R; UC_BIDI_AL; UC_BIDI_AN; UC_BIDI_EN; UC_BIDI_ES; UC_BIDI_CS; UC_BIDI_ET;
                      UC_BIDI_ON; UC_BIDI_BN; UC_BIDI_NSM]) l.
  Definition rtl_end := [UC_BIDI_R; UC_BIDI_AL; UC_BIDI_EN; UC_BIDI_AN].
  Definition rule3 l := rtl_start l -> ends rtl_end l.
  Definition rule4 l := rtl_start l -> ~ (Exists (class_in [UC_BIDI_EN]) l /\ Exists (class_in [UC_BIDI_AN]) l).
  Definition rule5 l := ltr_start l ->
    Forall (class_in [UC_BIDI_L; UC_BIDI_EN; UC_BIDI_ES; UC_BIDI_CS; UC_BIDI_ET; UC_BIDI_ON; UC_BIDI_BN; UC_BIDI_NSM]) l.
  Definition ltr_end := [UC_BIDI_L; UC_BIDI_EN].
  Definition rule6 l := ltr_start l -> ends ltr_end l.

  Definition rfc5893 l := rule1 l /\ rule2 l /\ rule3 l /\ rule4 l /\ rule5 l /\ rule6 l.

  (** The rule as implemented. *)
  Definition rule3_weak l := rtl_start l -> ends_weak rtl_end l.
  Definition rule6_weak l := ltr_start l -> ends_weak ltr_end l.
  Definition bidi_rule_implemented l := rule1 l /\ rule2 l /\ rule3_weak l /\ rule5 l /\ rule6_weak l.
End SpecBidi.
