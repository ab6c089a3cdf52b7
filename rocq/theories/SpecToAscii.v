(** What idn2_lookup_u8 accepts, and what it returns: ToASCII of UTS #46 with
    the choices of libidn2, written over code points and RFC 3492, without
    reference to the model. *)
From Verif Require Import Base Uenv DataTypes Tables SpecTables SpecPuny SpecUtf8 SpecContext SpecBidi SpecLabel SpecNfc SpecLookup.

(** RFC 3492 encoding: the ASCII characters, a delimiter if there are any, and
    lower-case digits; the RFC's decoder gives back [p]. *)
Definition rfc_encodes (p e : list Z) : Prop :=
  (exists ds, Forall lower_or_digit ds /\
     e = ascii_part p ++ (if zlen (ascii_part p) =? 0 then [] else [45]) ++ ds) /\
  rfc_decodes e p.

(** What the decoder makes of the part after "xn--" of an A-label: letter case
    of the digits is ignored, '_' is read as the digit 'a', all-ASCII results
    and results of more than 63 code points are refused. *)
Definition decodes_to (e p : list Z) : Prop :=
  Forall ldh_or_underscore e /\ rfc_decodes (canon e) p /\ Forall permitted p /\
  Exists (fun c => 128 <= c) p /\ zlen p <= 63.

Definition ace (e : list Z) : list Z := 120 :: 110 :: 45 :: 45 :: e.
Definition all_ascii (s : list Z) : Prop := Forall (fun c => c < 128) s.
Definition not_ascii (s : list Z) : Prop := Exists (fun c => 128 <= c) s.
(** The ASCII characters of [p] are among those the decoder lets through. *)
Definition ascii_ldhu (p : list Z) : Prop := Forall (fun c => c < 128 -> ldh_or_underscore c) p.

Section Spec.
  Variable U : uenv.

  (** UTS #46 section 4.1, validity criteria 1 to 6. *)
  Definition uts46_valid (transitional std3 : bool) (p : list Z) : Prop :=
    ok_nfc U p /\ ok_2hyphen p /\ ok_hyphen_startend p /\ ok_leading U p /\
    ok_status p transitional (negb std3).

  (** RFC 5891 section 5.4; [relaxed] lets the characters through that
      UTS #46 disallows for STD3 only. *)
  Definition idna2008_valid (relaxed : bool) (p : list Z) : Prop :=
    ok_nfc U p /\ ok_2hyphen p /\ ok_leading U p /\ ok_disallowed p relaxed /\
    ok_no p UNASSIGNED /\ ok_contextj_rule U p /\ ok_bidi U p.

  (** One label of the mapped and normalised name, TR46 modes. *)
  Inductive tr46_label (f : Z) (s : list Z) : list Z -> Prop :=
  | t46_ascii : all_ascii s -> ~ xn s -> uts46_valid (opt_transitional f) (opt_std3 f) s -> zlen s <= 63 ->
      tr46_label f s s
  | t46_alabel : forall e p, s = ace e -> zlen e <= 59 -> decodes_to e p -> uts46_valid false (opt_std3 f) p ->
      opt_no_roundtrip f = false -> canon e = map lower e ->
      (opt_transitional f = false -> idna2008_valid (negb (opt_std3 f)) p) ->
      tr46_label f s (ace (map lower e))
  | t46_verbatim : forall e p, s = ace e -> zlen e <= 59 -> decodes_to e p -> uts46_valid false (opt_std3 f) p ->
      opt_no_roundtrip f = true ->
      tr46_label f s s
  | t46_ulabel : forall e, not_ascii s -> ~ xn s -> uts46_valid (opt_transitional f) (opt_std3 f) s ->
      (opt_transitional f = false -> idna2008_valid (negb (opt_std3 f)) s) ->
      (opt_no_roundtrip f = false -> ascii_ldhu s) ->
      rfc_encodes s e -> zlen e <= 59 ->
      tr46_label f s (ace e).

  (** Size limits of the resulting name. *)
  Definition name_fits (ds : list (list Z)) (r : list Z) : Prop :=
    zlen r <= 253 \/ (zlen r = 254 /\ last ds [] = []).

  Definition tr46_accepts (f : Z) (src r : list Z) : Prop :=
    exists l n ls ds,
      utf8 l src /\ ~ Exists (fun c => status_of c = Disallowed) l /\
      zlen (uts46_map (opt_transitional f) (opt_std3 f) l) < 255 /\
      ue_nfc U (uts46_map (opt_transitional f) (opt_std3 f) l) = Some n /\
      dotted ls n /\ Forall2 (tr46_label f) ls ds /\ dotted ds r /\ name_fits ds r.

  (** Normalisation in the modes without TR46: left out without
      IDN2_NFC_INPUT, and for labels the quick check approves of. *)
  Definition normal_form (nfc : bool) (l p : list Z) : Prop :=
    if nfc then (qc_yes (ue_ccc U) 0 (visited false l) /\ p = l) \/
                (~ qc_yes (ue_ccc U) 0 (visited false l) /\ ue_nfc U l = Some p)
    else p = l.

  (** One label, modes without TR46; [b] are bytes. *)
  Inductive raw_label (f : Z) (b : list Z) : list Z -> Prop :=
  | raw_ascii : all_ascii b -> (opt_no_roundtrip f = false -> ~ xn b) -> zlen b <= 63 ->
      raw_label f b b
  | raw_alabel : forall e p0 p e', b = ace e -> opt_no_roundtrip f = false ->
      decodes_to e p0 -> Forall scalar p0 -> normal_form (opt_nfc f) p0 p -> idna2008_valid false p ->
      rfc_encodes p e' -> zlen e' <= 59 -> same_but_case e e' ->
      raw_label f b (ace e')
  | raw_ulabel : forall p0 p e, not_ascii b -> utf8 p0 b -> normal_form (opt_nfc f) p0 p -> idna2008_valid false p ->
      (opt_no_roundtrip f = false -> not_ascii p) ->
      rfc_encodes p e -> zlen e <= 59 ->
      raw_label f b (ace e).

  Definition raw_accepts (f : Z) (src r : list Z) : Prop :=
    exists ls ds, dotted ls src /\ Forall2 (raw_label f) ls ds /\ dotted ds r /\ name_fits ds r.

  Definition accepts (f : Z) (src r : list Z) : Prop :=
    ~ bad_flags f /\
    if opt_no_tr46 f then raw_accepts f src r else tr46_accepts f src r.
End Spec.

Definition ends_in_dot (r : list Z) : Prop := r = [] \/ exists t, r = t ++ [46].
(** RFC 5893 section 1.4: a Bidi domain name is one with a right-to-left label; its
    section 2 is a condition on all labels of such a name. *)
Definition bidi_domain (U : uenv) (ls : list (list Z)) : Prop := Exists (has_rtl (ue_bidi U)) ls.
