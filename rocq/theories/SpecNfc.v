(** The quick check of UAX #15 section 9, and what the theorems assume about
    libunistring's u32_normalize (UNINORM_NFC). *)
From Verif Require Import Base Uenv DataTypes SpecUtf8 SpecTables.

(** "YES" answer of the quick check: every code point is NFC_QC=Yes and
    combining classes of consecutive non-starters are in order. *)
Fixpoint qc_yes (ccc : Z -> Z) (last : Z) (l : list Z) : Prop :=
  match l with
  | [] => True
  | c :: r => nfc_qc c = None /\ (ccc c = 0 \/ last <= ccc c) /\ qc_yes ccc (ccc c) r
  end.

(** UAX #15: a string with answer YES is in NFC. *)
Definition qc_sound (U : uenv) : Prop := forall l, qc_yes (ue_ccc U) 0 l -> ue_nfc U l = Some l.

Definition supplementary (c : Z) : Prop := 0x10000 <= c.
(** The elements the loop of _isNFC looks at: it skips the element after a
    supplementary one. *)
Fixpoint visited (skip : bool) (l : list Z) : list Z :=
  match l with
  | [] => []
  | c :: r => if skip then visited false r else c :: visited (0x10000 <=? c) r
  end.

(** The facts about u32_normalize (UNINORM_NFC) used where the whole of a name
    is followed through: NUL and '.' neither combine with anything nor arise,
    ASCII is unchanged, code points stay code points, and (UAX #15) a string at
    most quadruples in length. *)
Definition separator (c : Z) : Prop := c = 0 \/ c = 46.
Record nfc_ok (U : uenv) : Prop := {
  nfc_separator : forall s a b, separator s ->
    ue_nfc U (a ++ s :: b) =
    match ue_nfc U a, ue_nfc U b with Some x, Some y => Some (x ++ s :: y) | _, _ => None end;
  nfc_no_separator : forall s l p, separator s -> ue_nfc U l = Some p -> In s p -> In s l;
  nfc_ascii : forall l, Forall (fun c => 0 <= c < 128) l -> ue_nfc U l = Some l;
  nfc_scalar : forall l p, Forall scalar l -> ue_nfc U l = Some p -> Forall scalar p;
  nfc_length : forall l p, ue_nfc U l = Some p -> zlen p <= 4 * zlen l
}.
