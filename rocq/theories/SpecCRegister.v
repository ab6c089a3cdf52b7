(** What it means that the C text of register.c returns. *)
From Coq Require Import String.
From Verif Require Import Base Uenv CLang CLookup CRegister SpecCPuny.
Local Open Scope string_scope.
Local Open Scope list_scope.
Local Open Scope Z_scope.

(** [name] with the string [t] at its front. *)
Definition with_string (t : list Z) (name : list (option Z)) : list (option Z) := map Some (t ++ [0]) ++ skipn (S (length t)) name.
(** What is in *insertname after the result [r]. *)
Definition inserted (has : bool) (r : Z + list Z) (name : list (option Z)) : list (option Z) :=
  match r with inr t => if has then with_string t name else name | inl _ => name end.
Definition code_of (r : Z + list Z) : Z := match r with inl rc => rc | inr _ => 0 end.
Definition proper (r : Z + list Z) : Prop := match r with inl rc => rc <> 0 | inr _ => True end.

(** idn2_register_u8 with the U-label [s]: whatever is in the arrays, and with insertname NULL
    or not. *)
Definition ulabel_text (U : uenv) (reg : list Z -> Z + list Z) (f : Z) (s : list Z) (r : Z + list Z) : Prop :=
  proper r /\ forall (has : bool) u32 tmp name, 4 * zlen s <= zlen u32 -> zlen tmp = 64 -> zlen name = 64 -> exists u32' tmp',
  returns (fun fuel => run (register_program U reg) c_register_u 0 fuel [(I32, f); (I32, if has then 1 else 0)]
      [("ulabel", (U8, map Some (s ++ [0]))); ("u32", (U32, u32)); ("tmp", (U8, tmp)); ("insertname", (U8, name))])
    (code_of r, [("ulabel", (U8, map Some (s ++ [0]))); ("u32", (U32, u32')); ("tmp", (U8, tmp')); ("insertname", (U8, inserted has r name))]).
(** With the A-label [a], and the U-label [u] or NULL. *)
Definition ulabel_array (u : option (list Z)) : list (option Z) := match u with Some s => map Some (s ++ [0]) | None => [] end.
Definition alabel_text (U : uenv) (reg : list Z -> Z + list Z) (u : option (list Z)) (a : list Z) (r : Z + list Z) : Prop :=
  proper r /\ forall (has : bool) u32 u8 tmp name, zlen u32 = 1020 -> zlen u8 = 256 -> zlen tmp = 64 -> zlen name = 64 -> exists u32' u8' tmp',
  returns (fun fuel => run (register_program U reg) c_register_a 0 fuel [(I32, match u with Some _ => 1 | None => 0 end); (I32, if has then 1 else 0)]
      [("ulabel", (U8, ulabel_array u)); ("alabel", (U8, map Some (a ++ [0]))); ("u32", (U32, u32)); ("u8", (U8, u8)); ("tmp", (U8, tmp)); ("insertname", (U8, name))])
    (code_of r, [("ulabel", (U8, ulabel_array u)); ("alabel", (U8, map Some (a ++ [0]))); ("u32", (U32, u32')); ("u8", (U8, u8')); ("tmp", (U8, tmp')); ("insertname", (U8, inserted has r name))]).
