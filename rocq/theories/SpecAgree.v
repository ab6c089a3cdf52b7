(** Two versions of libunistring. *)
From Verif Require Import Base Uenv DataTypes SpecUtf8 SpecPuny SpecTables SpecNfc SpecLookup SpecToAscii.

(** [U] and [V] say the same about the code points in [A], and normalisation does
    not lead out of [A]. *)
Record agree (A : Z -> Prop) (U V : uenv) : Prop := {
  ag_ccc : forall c, A c -> ue_ccc U c = ue_ccc V c;
  ag_bidi : forall c, A c -> ue_bidi U c = ue_bidi V c;
  ag_join : forall c, A c -> ue_join U c = ue_join V c;
  ag_mark : forall c, A c -> ue_mark U c = ue_mark V c;
  ag_script : forall c, A c -> ue_script U c = ue_script V c;
  ag_nfc : forall l, Forall A l -> ue_nfc U l = ue_nfc V l;
  ag_closed : forall l p, Forall A l -> ue_nfc U l = Some p -> Forall A p
}.

(** The name after the mapping of UTS 46, if it is done. *)
Definition mapped_name (f : Z) (l : list Z) : list Z :=
  if opt_no_tr46 f then l else uts46_map (opt_transitional f) (opt_std3 f) l.
(** The name whose labels are converted. *)
Definition final_name (U : uenv) (f : Z) (l n : list Z) : Prop :=
  if opt_no_tr46 f then n = l else ue_nfc U (mapped_name f l) = Some n.
(** Without TR46 and with IDN2_NO_ALABEL_ROUNDTRIP, A-labels are not decoded. *)
Definition decoding (f : Z) : Prop := opt_no_tr46 f = true -> opt_no_roundtrip f = false.
(** The code points of the mapped name, and those its A-labels stand for, are in
    [A]. *)
Definition only (A : Z -> Prop) (U : uenv) (f : Z) (l : list Z) : Prop :=
  Forall A (mapped_name f l) /\
  forall n ls e p, decoding f -> final_name U f l n -> dotted ls n -> In (ace e) ls -> decodes_to e p -> Forall A p.

(** The same for registration of [u] (if given) with the A-label [a] (if given). *)
Definition only_registered (A : Z -> Prop) (u a : option (list Z)) : Prop :=
  (forall s l, u = Some s -> a = None -> utf8 l s -> Forall A l) /\
  (forall e p, a = Some (ace e) -> decodes_to e p -> Forall A p).

(** Code points that the tables of libidn2 know: not both disallowed by UTS 46 and
    unassigned by IDNA 2008. *)
Definition known (c : Z) : Prop := status_of c <> Disallowed \/ csv_property c <> UNASSIGNED.
