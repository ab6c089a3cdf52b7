(** The text of the label tests on a few labels. *)
From Verif Require Import Base PunyBase Uenv Ucd Bidi Context Idna CLang CLabel SpecCPuny SpecCLabel CLabelTop.
Local Open Scope list_scope.
Local Open Scope Z_scope.

Lemma small_array : forall l, forallb (fun c => (0 <=? c) && (c <? two32)) l = true -> zlen l < 100 -> array32 l.
Proof. intros l F L. split; [|unfold two64; lia]. apply Forall_forall. intros x I. rewrite forallb_forall in F. specialize (F x I). lia. Qed.
Lemma returns_eq : forall U f l args a b, a = b -> c_returns U f l args a -> c_returns U f l args b. Proof. intros; subst; assumption. Qed.
(** Hebrew with a hyphen in the middle and at the end; a Latin letter before Hebrew. *)
Lemma case_bidi : array32 [0x5d0; 0x2d; 0x31] /\
  c_returns ucd c_bidi [0x5d0; 0x2d; 0x31] [(U64, 3)] 0 /\ c_returns ucd c_bidi [0x5d0; 0x2d] [(U64, 2)] IDN2_BIDI /\
  c_returns ucd c_bidi [0x61; 0x5d0] [(U64, 2)] IDN2_BIDI /\ c_returns ucd c_bidi [] [(U64, 0)] 0.
Proof.
  split; [apply small_array; reflexivity|]. repeat split.
  all: match goal with |- c_returns _ _ ?l _ _ => refine (returns_eq _ _ _ _ _ _ _ (text_bidi ucd l (small_array _ _ _))) end; vm_compute; reflexivity.
Qed.
Lemma case_context :
  c_returns ucd c_contextj_rule [0x628; 0x64b; 0x200C; 0x64c; 0x627] [(U64, 5); (U64, 2)] 0 /\
  c_returns ucd c_contextj_rule [0x628; 0x64b; 0x200C; 0x61; 0x627] [(U64, 5); (U64, 2)] IDN2_CONTEXTJ /\
  c_returns ucd c_contextj_rule [0x200C] [(U64, 1); (U64, 0)] IDN2_CONTEXTJ /\
  c_returns ucd c_contexto_rule [0x6C; 0xB7; 0x6C] [(U64, 3); (U64, 1)] 0 /\
  c_returns ucd c_contexto_rule [0xB7; 0x6C; 0x6C] [(U64, 3); (U64, 0)] IDN2_CONTEXTO /\
  c_returns ucd c_contexto_rule [0x660; 0x61; 0x6F0] [(U64, 3); (U64, 2)] IDN2_CONTEXTO /\
  c_returns ucd c_contexto_rule [0x30FB; 0x30A2] [(U64, 2); (U64, 0)] 0.
Proof.
  repeat split.
  1-3: match goal with |- c_returns _ _ ?l [_; (_, ?p)] _ => refine (returns_eq _ _ _ _ _ _ _ (text_contextj ucd l p (small_array _ _ _) _)) end; vm_compute; try reflexivity; (split; [discriminate|reflexivity]).
  all: match goal with |- c_returns _ _ ?l [_; (_, ?p)] _ => refine (returns_eq _ _ _ _ _ _ _ (text_contexto ucd l p (small_array _ _ _) _)) end; vm_compute; try reflexivity; (split; [discriminate|reflexivity]).
Qed.
(** The flags of a lookup, and some of the errors. *)
Lemma case_label : array32 [0xE9; 0x6C; 0xB7; 0x6C] /\ nfc_fits ucd [0xE9; 0x6C; 0xB7; 0x6C] /\
  c_returns ucd c_label_test [0xE9; 0x6C; 0xB7; 0x6C] [(I32, 0x3F5F); (U64, 4)] 0 /\
  c_returns ucd c_label_test [0xE9; 0x6C; 0xB7; 0x6C] [(I32, 0x3FFF); (U64, 4)] IDN2_CONTEXTO /\
  c_returns ucd c_label_test [0x65; 0x301] [(I32, 1); (U64, 2)] IDN2_NOT_NFC /\
  c_returns ucd c_label_test [0x61; 0x61; 0x2D; 0x2D] [(I32, 2); (U64, 4)] IDN2_2HYPHEN /\
  c_returns ucd c_label_test [0xDF] [(I32, 0x1000); (U64, 1)] IDN2_INVALID_TRANSITIONAL /\
  c_returns ucd c_label_test [0xDF] [(I32, 0x2000); (U64, 1)] 0 /\
  c_returns ucd c_label_test [] [(I32, 0x3FFF); (U64, 0)] 0.
Proof.
  split; [apply small_array; reflexivity|]. split; [intros q Q; vm_compute in Q; injection Q as <-; reflexivity|]. repeat split.
  all: match goal with |- c_returns _ _ ?l [(_, ?w); _] _ => refine (returns_eq _ _ _ _ _ _ _ (text_label ucd w l (small_array _ _ _) _ _)) end;
    [vm_compute; reflexivity|vm_compute; reflexivity|vm_compute; reflexivity|intros q Q; vm_compute in Q; injection Q as <-; reflexivity|vm_compute; split; [discriminate|reflexivity]].
Qed.
(** U+11099 U+110BA: the second code point is not looked at. *)
Lemma case_nfc : c_returns ucd c_isNFC [0x65; 0x301] [(U64, 2)] 0 /\ c_returns ucd c_isNFC [0xE9] [(U64, 1)] 1 /\
  c_returns ucd c_isNFC [0x11099; 0x110BA] [(U64, 2)] 1 /\ c_returns ucd c_isNFC [0x61; 0x10FFFF] [(U64, 2)] 1.
Proof.
  repeat split.
  all: match goal with |- c_returns _ _ ?l _ ?v => destruct (text_nfc ucd l (small_array l eq_refl eq_refl)) as (k & K & T); refine (returns_eq _ _ _ _ k v _ T); vm_compute in K; congruence end.
Qed.
Lemma case_ascii : bytes_return ucd c_ascii_p [97; 127] 1 /\ bytes_return ucd c_ascii_p [97; 128] 0.
Proof.
  split; match goal with |- bytes_return _ _ ?l _ => refine (text_ascii ucd l _ _) end; try (repeat constructor; discriminate); reflexivity.
Qed.
