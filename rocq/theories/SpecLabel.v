(** The tests on a single label, each stated on its own (RFC 5891 5.4, RFC
    5892, RFC 5893 as implemented, UTS 46 section 4.1). *)
From Verif Require Import Base Uenv DataTypes SpecTables SpecBidi SpecContext.

Section SpecLabel.
  Variable U : uenv.
  Variable label : list Z.

  Definition is_std3 (c : Z) : Prop := status_of c = Std3Valid \/ status_of c = Std3Mapped.

  Definition ok_normalises := ue_nfc U label <> None.
  Definition ok_nfc := ue_nfc U label = Some label.
  Definition ok_2hyphen := ~ exists a b r, label = a :: b :: 0x2D :: 0x2D :: r.
  Definition ok_hyphen_startend := (forall r, label <> 0x2D :: r) /\ (forall r, label <> r ++ [0x2D]).
  Definition ok_leading := ~ exists c r, label = c :: r /\ ue_mark U c = true.
  Definition ok_disallowed (std3 : bool) :=
    Forall (fun c => csv_property c <> DISALLOWED \/ (std3 = true /\ is_std3 c)) label.
  Definition ok_no (p : prop) := Forall (fun c => csv_property c <> p) label.
  Definition ok_contextj_rule := forall pre c post, label = pre ++ c :: post -> rfc5892_joiner U c pre post.
  Definition ok_contexto_rule := forall pre c post, label = pre ++ c :: post -> rfc5892_other U c pre post.
  Definition ok_bidi := ~ has_rtl (ue_bidi U) label \/ bidi_rule_implemented (ue_bidi U) label.
  Definition ok_dot := Forall (fun c => c <> 0x2E) label.
  Definition ok_status (transitional std3 : bool) :=
    Forall (fun c => status_of c = Valid \/ (transitional = false /\ status_of c = Deviation) \/ (std3 = true /\ is_std3 c)) label.
End SpecLabel.

(** [first_failure ts r]: of the selected tests in [ts], in order, [r] is the
    code of the first that does not hold ([None] if all hold). *)
Inductive first_failure : list (bool * Prop * Z) -> option Z -> Prop :=
| ff_none : first_failure [] None
| ff_pass : forall sel (P : Prop) rc ts r, (sel = true -> P) -> first_failure ts r -> first_failure ((sel, P, rc) :: ts) r
| ff_fail : forall sel (P : Prop) rc ts, sel = true -> ~ P -> first_failure ((sel, P, rc) :: ts) (Some rc).

(** A test that is selected holds. *)
Definition passes (t : bool * Prop * Z) : Prop := let '(sel, P, _) := t in sel = true -> P.

(** Bit [n] of a flag word. *)
Notation bit := Z.testbit.

(** The tests in the order of _idn2_label_test, with the bit of the selection
    word (lib/idna.h) that asks for them and the code they report. *)
Definition label_tests_spec (U : uenv) (what : Z) (l : list Z) : list (bool * Prop * Z) :=
  let tr := bit what 12 in
  let nontr := bit what 13 in
  let std3 := bit what 14 in
  [ (bit what 0, ok_normalises U l, IDN2_NFC);
    (bit what 0, ok_nfc U l, IDN2_NOT_NFC);
    (bit what 1, ok_2hyphen l, IDN2_2HYPHEN);
    (bit what 2, ok_hyphen_startend l, IDN2_HYPHEN_STARTEND);
    (bit what 3, ok_leading U l, IDN2_LEADING_COMBINING);
    (bit what 4, ok_disallowed l ((tr || nontr) && std3), IDN2_DISALLOWED);
    (bit what 5, ok_no l CONTEXTJ, IDN2_CONTEXTJ);
    (bit what 6, ok_contextj_rule U l, IDN2_CONTEXTJ);
    (bit what 7, ok_no l CONTEXTO, IDN2_CONTEXTO);
    (bit what 9, ok_contexto_rule U l, IDN2_CONTEXTO);
    (bit what 10, ok_no l UNASSIGNED, IDN2_UNASSIGNED);
    (bit what 11, ok_bidi U l, IDN2_BIDI);
    (tr || nontr, ok_dot l, IDN2_DOT_IN_LABEL);
    (tr || nontr, ok_status l tr std3, if tr then IDN2_INVALID_TRANSITIONAL else IDN2_INVALID_NONTRANSITIONAL) ].
