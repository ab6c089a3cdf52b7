(** ToUnicode of UTS #46, section 4.3: the outcome of the processing of section 4, where it records no error. *)
From Verif Require Import Base Uenv DataTypes SpecTables SpecPuny SpecLookup SpecToAscii SpecUts46.

(** Sections 4 and 4.3; [n] is the name after steps 1 and 2, [ps] are the labels of the result [r]. *)
Definition uts46_to_unicode (U : uenv) (P : params) (l n : list Z) (ps : list (list Z)) (r : list Z) : Prop :=
  no_disallowed P l /\ ue_nfc U (flat_map (map_char P) l) = Some n /\
  (exists ls, dotted ls n /\ Forall2 (process_label U P) ls ps) /\ bidi_criterion U P ps /\ dotted ps r.
