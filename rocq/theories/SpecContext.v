(** RFC 5892 Appendix A: the contextual rules, for a code point between the
    parts [pre] and [post] of a label, over arbitrary Unicode data. *)
From Coq Require Import String.
From Verif Require Import Base Uenv.

Section SpecContext.
  Variable U : uenv.

  (** Canonical_Combining_Class(Before(cp)) .eq. Virama *)
  Definition virama_prev (pre : list Z) : Prop := exists p v, pre = (p ++ [v])%list /\ ue_ccc U v = 9.
  Definition jt (s : list joining) (c : Z) : Prop := In (ue_join U c) s.

  (** A.1 ZERO WIDTH NON-JOINER: virama before, or
      (Joining_Type:{L,D})(Joining_Type:T)*(cp)(Joining_Type:T)*(Joining_Type:{R,D}). *)
  Definition A1 (pre post : list Z) : Prop :=
    virama_prev pre \/
    ((exists p a ts, pre = (p ++ a :: ts)%list /\ jt [UC_JOINING_TYPE_L; UC_JOINING_TYPE_D] a /\ Forall (jt [UC_JOINING_TYPE_T]) ts) /\
     (exists ts b q, post = (ts ++ b :: q)%list /\ Forall (jt [UC_JOINING_TYPE_T]) ts /\ jt [UC_JOINING_TYPE_R; UC_JOINING_TYPE_D] b)).
  (** A.2 ZERO WIDTH JOINER. *)
  Definition A2 (pre post : list Z) : Prop := virama_prev pre.

  Definition before_is (P : Z -> Prop) (pre : list Z) : Prop := exists p b, pre = (p ++ [b])%list /\ P b.
  Definition after_is (P : Z -> Prop) (post : list Z) : Prop := exists a q, post = a :: q /\ P a.
  Definition script (n : string) (c : Z) : Prop := ue_script U c = Some n.

  (** A.3 MIDDLE DOT. *)
  Definition A3 pre post := before_is (fun b => b = 0x6C) pre /\ after_is (fun a => a = 0x6C) post.
  (** A.4 GREEK LOWER NUMERAL SIGN. *)
  Definition A4 (pre post : list Z) := after_is (script "Greek") post.
  (** A.5, A.6 HEBREW GERESH, GERSHAYIM. *)
  Definition A56 (pre post : list Z) := before_is (script "Hebrew") pre.
  (** A.7 KATAKANA MIDDLE DOT (label). *)
  Definition A7 (label : list Z) := Exists (fun c => script "Hiragana" c \/ script "Katakana" c \/ script "Han" c) label.
  (** A.8 ARABIC-INDIC DIGITS; A.9 EXTENDED ARABIC-INDIC DIGITS. *)
  Definition arabic_indic (c : Z) := 0x660 <= c <= 0x669.
  Definition ext_arabic_indic (c : Z) := 0x6F0 <= c <= 0x6F9.
  Definition A8 (label : list Z) := Forall (fun c => ~ ext_arabic_indic c) label.
  Definition A9 (label : list Z) := Forall (fun c => ~ arabic_indic c) label.

  Definition rfc5892_joiner (c : Z) (pre post : list Z) : Prop :=
    (c = 0x200C -> A1 pre post) /\ (c = 0x200D -> A2 pre post).
  Definition rfc5892_other (c : Z) (pre post : list Z) : Prop :=
    (c = 0xB7 -> A3 pre post) /\
    (c = 0x375 -> A4 pre post) /\
    (c = 0x5F3 \/ c = 0x5F4 -> A56 pre post) /\
    (c = 0x30FB -> A7 (pre ++ c :: post)%list) /\
    (arabic_indic c -> A8 (pre ++ c :: post)%list) /\
    (ext_arabic_indic c -> A9 (pre ++ c :: post)%list).
End SpecContext.
