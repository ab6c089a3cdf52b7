(** ToASCII of UTS #46 with all its parameters (revision 27, Unicode 14):
    sections 4, 4.1 and 4.2 of the standard, which know nothing of IDNA2008 or
    of the library. *)
From Verif Require Import Base Uenv DataTypes SpecTables SpecPuny SpecUtf8 SpecContext SpecBidi SpecLabel SpecLookup SpecToAscii.

Record params := Params {
  use_std3 : bool;        (* UseSTD3ASCIIRules *)
  check_hyphens : bool;   (* CheckHyphens *)
  check_joiners : bool;   (* CheckJoiners *)
  check_bidi : bool;      (* CheckBidi *)
  transitional : bool;    (* Transitional_Processing *)
  verify_length : bool;   (* VerifyDnsLength *)
  ascii_ace : bool        (* may an A-label decode to ASCII?  (not since revision 31) *)
}.

(** Section 5: the two conditional values of the status. *)
Definition effective (std3 : bool) (c : Z) : status :=
  match status_of c with
  | Std3Valid => if std3 then Disallowed else Valid
  | Std3Mapped => if std3 then Disallowed else Mapped
  | s => s
  end.

(** Section 4, step 1. *)
Definition map_char (P : params) (c : Z) : list Z :=
  match effective (use_std3 P) c with
  | Mapped => mapping_of c
  | Ignored => []
  | Deviation => if transitional P then mapping_of c else [c]
  | _ => [c]
  end.
Definition no_disallowed (P : params) (l : list Z) : Prop := Forall (fun c => effective (use_std3 P) c <> Disallowed) l.

Section Uts46.
  Variable U : uenv.
  Variable P : params.

  (** Section 4.1 without the last criterion, for transitional processing or not. *)
  Record valid_label (tr : bool) (p : list Z) : Prop := {
    vl_nfc : ok_nfc U p;
    vl_hyphens : check_hyphens P = true -> ok_2hyphen p /\ ok_hyphen_startend p;
    vl_dot : ok_dot p;
    vl_mark : ok_leading U p;
    vl_status : Forall (fun c => effective (use_std3 P) c = Valid \/ (tr = false /\ effective (use_std3 P) c = Deviation)) p;
    vl_joiners : check_joiners P = true -> ok_contextj_rule U p
  }.

  (** Section 4, step 4: a label and what it is in the Unicode form of the name. *)
  Inductive process_label (s : list Z) : list Z -> Prop :=
  | pl_ace : forall e p, s = ace e -> all_ascii e -> rfc_decodes e p -> Forall scalar p -> (ascii_ace P = false -> not_ascii p) ->
      valid_label false p -> process_label s p
  | pl_plain : ~ xn s -> valid_label (transitional P) s -> process_label s s.

  (** Section 4.1, criterion 8: a Bidi domain name satisfies RFC 5893 label by label. *)
  Definition bidi_criterion (ps : list (list Z)) : Prop :=
    check_bidi P = true -> Exists (has_rtl (ue_bidi U)) ps -> Forall (rfc5893 (ue_bidi U)) ps.

  (** Section 4.2, step 3. *)
  Inductive encode_label (p : list Z) : list Z -> Prop :=
  | el_ascii : all_ascii p -> encode_label p p
  | el_ace : forall e, not_ascii p -> rfc_encodes p e -> encode_label p (ace e).

  (** Section 4.2, step 4: the root label and its dot do not count. *)
  Definition dns_lengths (ds : list (list Z)) : Prop :=
    exists core, (ds = core \/ ds = core ++ [[]]) /\ core <> [] /\ Forall (fun d => 1 <= zlen d <= 63) core /\ zlen (join core) <= 253.

  (** [l] is the name, [ps] are the labels of its Unicode form, [r] is the result. *)
  Definition uts46_to_ascii (l : list Z) (ps : list (list Z)) (r : list Z) : Prop :=
    exists n ls ds,
      no_disallowed P l /\ ue_nfc U (flat_map (map_char P) l) = Some n /\ dotted ls n /\
      Forall2 process_label ls ps /\ bidi_criterion ps /\
      Forall2 encode_label ps ds /\ dotted ds r /\ (verify_length P = true -> dns_lengths ds).
End Uts46.

(** What the library requires on top, of a label with non-ASCII characters: no code
    point that IDNA2008 disallows or leaves unassigned, and no ASCII characters but
    letters, digits, hyphen and underscore. *)
Definition idna2008_chars (std3 : bool) (p : list Z) : Prop :=
  not_ascii p -> ok_disallowed p (negb std3) /\ ok_no p UNASSIGNED /\ ascii_ldhu p.

(** The parameters the library uses for a flag word; [bidi] and [dns] are up to the
    statement. *)
Definition lib_params (f : Z) (bidi dns : bool) : params :=
  Params (opt_std3 f) true (negb (opt_transitional f)) bidi (opt_transitional f) dns false.

(** No label but the last is empty, and neither is the name. *)
Definition no_empty_label (r : list Z) : Prop :=
  forall ds, dotted ds r -> exists core, (ds = core \/ ds = core ++ [[]]) /\ core <> [] /\ Forall (fun d => d <> []) core.
(** No A-label of [r] stands for a string with a character in [Q]. *)
Definition no_a_label_with (Q : Z -> Prop) (r : list Z) : Prop :=
  forall ds e p, dotted ds r -> In (ace e) ds -> rfc_decodes e p -> Forall (fun c => ~ Q c) p.
