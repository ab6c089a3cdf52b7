(** What it means that the C text of the functions around idn2_lookup_u8 returns. *)
From Coq Require Import String.
From Verif Require Import Base Uenv SpecLookup CLang CWrap SpecCPuny SpecCLookup SpecCRegister.
Local Open Scope string_scope.
Local Open Scope list_scope.
Local Open Scope Z_scope.

Section Spec.
  Variable U : uenv.
  Variables look four : list Z -> Z -> Z + list Z.
  Variable from : list Z -> option (list Z).
  Notation P := (wrap_program U look four from).
  (** [l] at the front of [out]. *)
  Definition in_front (l : list Z) (out : list (option Z)) : list (option Z) := map Some l ++ skipn (length l) out.
  (** _idn2_u8_to_u32_nfc on the bytes [s]: whatever is behind them and in the arrays. *)
  Definition nfc_text (nfc : Z) (s : list Z) (r : Z + list Z) : Prop :=
    proper r /\ forall rest p tmp out n, 4 * zlen s <= zlen p -> 4 * zlen s <= zlen tmp -> 4 * zlen s <= zlen out -> exists p' tmp',
    returns (fun fuel => run P c_nfc 0 fuel [(U64, zlen s); (I32, nfc)] [("src", (U8, map Some s ++ rest)); ("p", (U32, p)); ("tmp", (U32, tmp)); ("out", (U32, out)); ("outlen", (U64, [n]))])
      (code_of r, [("src", (U8, map Some s ++ rest)); ("p", (U32, p')); ("tmp", (U32, tmp')); ("out", (U32, match r with inr l => in_front l out | inl _ => out end));
                   ("outlen", (U64, [match r with inr l => Some (zlen l) | inl _ => n end]))]).
  (** There is room for the string. *)
  Definition room (r : Z + list Z) (name : list (option Z)) : Prop := match r with inr t => zlen t < zlen name | inl _ => True end.
  (** idn2_lookup_ul on the string [s] in the encoding of the locale; with lookupname NULL or not. *)
  Definition ul_text (f : Z) (s : list Z) (r : Z + list Z) : Prop :=
    proper r /\ forall (has : bool) u8 name, (forall b, from s = Some b -> zlen b < zlen u8) -> room r name -> exists u8',
    returns (fun fuel => run P c_lookup_ul 0 fuel [(I32, f); (I32, if has then 1 else 0)] [("src", (U8, map Some (s ++ [0]))); ("utf8src", (U8, u8)); ("lookupname", (U8, name))])
      (code_of r, [("src", (U8, map Some (s ++ [0]))); ("utf8src", (U8, u8')); ("lookupname", (U8, inserted has r name))]).
  (** idn2_to_ascii_4i2 on the [zlen l] elements [l]. *)
  Definition text_4i2_size (n m : Z) : Prop :=
    forall x, returns (fun fuel => run P c_4i2_size 0 fuel [(U64, n)] [("malloc", (U64, [x]))]) (0, [("malloc", (U64, [Some m]))]).
  Definition text_4i2 (f : Z) (l : list Z) (r : Z + list Z) : Prop :=
    proper r /\ forall (has : bool) rest u32 u8 name, zlen u32 = zlen l + 1 -> 4 * (zlen l + 1) <= zlen u8 -> room r name -> exists u32' u8',
    returns (fun fuel => run P c_4i2 0 fuel [(U64, zlen l); (I32, f); (I32, if has then 1 else 0)] [("input", (U32, map Some l ++ rest)); ("input_u32", (U32, u32)); ("input_u8", (U8, u8)); ("output", (U8, name))])
      (code_of r, [("input", (U32, map Some l ++ rest)); ("input_u32", (U32, u32')); ("input_u8", (U8, u8')); ("output", (U8, inserted has r name))]).
  (** idn2_to_ascii_4z on the string [l]. *)
  Definition text_4z (f : Z) (l : list Z) (r : Z + list Z) : Prop :=
    proper r /\ forall (has : bool) rest u8 name, 4 * (zlen l + 1) <= zlen u8 -> room r name -> exists u8',
    returns (fun fuel => run P c_4z 0 fuel [(I32, f); (I32, if has then 1 else 0)] [("input", (U32, map Some (l ++ [0]) ++ rest)); ("input_u8", (U8, u8)); ("output", (U8, name))])
      (code_of r, [("input", (U32, map Some (l ++ [0]) ++ rest)); ("input_u8", (U8, u8')); ("output", (U8, inserted has r name))]).
  (** idn2_to_ascii_4i on the [zlen l] elements [l] and the array [arr] of the caller: [rc] and
      [arr'].  [out] has room for any domain name. *)
  Definition text_4i (f : Z) (l : list Z) (has : bool) (arr : list (option Z)) (rc : Z) (arr' : list (option Z)) : Prop :=
    forall rest out, 256 <= zlen out -> exists out',
    returns (fun fuel => run P c_4i 0 fuel [(U64, zlen l); (I32, f); (I32, if has then 1 else 0)] [("input", (U32, map Some l ++ rest)); ("out", (U8, out)); ("output", (U8, arr))])
      (rc, [("input", (U32, map Some l ++ rest)); ("out", (U8, out')); ("output", (U8, arr'))]).
End Spec.
(** [look] is what the text of idn2_lookup_u8 computes. *)
Definition lookup_is (U : uenv) (lab look : list Z -> Z -> Z + list Z) : Prop :=
  forall s f, c_string s -> 32 * (zlen s + 1) < two64 -> 0 <= f < 2147483648 -> lookup_text U lab f s (look s f).
(** The string at the front of [l], which ends at the first zero or with [l]. *)
Definition until_zero (l v : list Z) : Prop := ~ In 0 v /\ (l = v \/ exists r, l = v ++ 0 :: r).
