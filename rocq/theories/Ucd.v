(** Normalization Form C of UAX #15 on the character data of [DataUcd], and the
    Unicode database made of it.  Not part of the model of libidn2: it shows
    that the facts assumed about libunistring hold of the real thing, and serves
    to run the model on the test vectors of /repo/tests (tools/validate.py). *)
From Coq Require Import String.
From Verif Require Import Base Uenv DataUcd.
Local Open Scope list_scope.

(** The tables are in ascending order. *)
Fixpoint assoc {A} (c : Z) (t : list (Z * A)) : option A :=
  match t with [] => None | (k, v) :: r => if c =? k then Some v else if c <? k then None else assoc c r end.
Fixpoint in_ranges {A} (c : Z) (t : list (Z * Z * A)) (d : A) : A :=
  match t with [] => d | (lo, hi, v) :: r => if c <? lo then d else if c <=? hi then v else in_ranges c r d end.
Fixpoint assoc2 (a b : Z) (t : list (Z * Z * Z)) : option Z :=
  match t with [] => None | (x, y, v) :: r => if a <? x then None else if (a =? x) && (b =? y) then Some v else assoc2 a b r end.

Definition ccc (c : Z) : Z := in_ranges c ucd_ccc 0.

(** Hangul (The Unicode Standard 3.12). *)
Definition hangul (c : Z) : bool := (44032 <=? c) && (c <=? 55203).
Definition decomp1 (c : Z) : list Z :=
  if hangul c then
    let i := c - 44032 in
    let t := Z.modulo i 28 in
    4352 + i / 588 :: 4449 + Z.modulo i 588 / 28 :: (if t =? 0 then [] else [4519 + t])
  else match assoc c ucd_decomp with Some l => l | None => [c] end.
Definition comp (a b : Z) : option Z :=
  if (4352 <=? a) && (a <=? 4370) && (4449 <=? b) && (b <=? 4469) then Some (44032 + ((a - 4352) * 21 + (b - 4449)) * 28)
  else if hangul a && (Z.modulo (a - 44032) 28 =? 0) && (4520 <=? b) && (b <=? 4546) then Some (a + (b - 4519))
  else assoc2 a b ucd_comp.

(** Canonical ordering. *)
Fixpoint sink (c : Z) (l : list Z) : list Z :=
  match l with
  | [] => [c]
  | d :: r => if (0 <? ccc d) && (ccc d <? ccc c) then d :: sink c r else c :: d :: r
  end.
Fixpoint order (l : list Z) : list Z := match l with [] => [] | c :: r => sink c (order r) end.

(** Canonical composition: [s] is the last starter, [p] what stands behind it,
    in reverse. *)
Definition blocked (p : list Z) (c : Z) : bool := match p with [] => false | d :: _ => ccc c <=? ccc d end.
Fixpoint compose (s : Z) (p : list Z) (l : list Z) : list Z :=
  match l with
  | [] => s :: rev p
  | c :: r =>
      match (if blocked p c then None else comp s c) with
      | Some x => compose x p r
      | None => if ccc c =? 0 then s :: rev p ++ compose c [] r else compose s (c :: p) r
      end
  end.
Fixpoint recompose (l : list Z) : list Z :=
  match l with
  | [] => []
  | c :: r => if ccc c =? 0 then compose c [] r else c :: recompose r
  end.
Definition nfc (l : list Z) : list Z := recompose (order (flat_map decomp1 l)).

Definition ucd : uenv := {|
  ue_ccc := ccc;
  ue_bidi := fun c => in_ranges c ucd_bidi UC_BIDI_L;
  ue_join := fun c => in_ranges c ucd_join UC_JOINING_TYPE_U;
  ue_mark := fun c => in_ranges c ucd_mark false;
  ue_script := fun c => in_ranges c (List.map (fun '(a, b, s) => (a, b, Some s)) ucd_script) None;
  ue_nfc := fun l => Some (nfc l)
|}.
