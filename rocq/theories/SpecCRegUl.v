(** What it means that the C text of idn2_register_ul returns. *)
From Coq Require Import String.
From Verif Require Import Base Uenv SpecLookup CLang CRegUl SpecCPuny SpecCRegister.
Local Open Scope string_scope.
Local Open Scope list_scope.
Local Open Scope Z_scope.

(** With the U-label [u] and the A-label [a], where given, and with insertname NULL or not. *)
Definition regul_text (reg : option (list Z) -> option (list Z) -> Z -> Z + list Z) (from : list Z -> option (list Z)) (f : Z) (u a : option (list Z)) (r : Z + list Z) : Prop :=
  proper r /\ forall (has : bool) rest more utf8 name, (forall s b, u = Some s -> from s = Some b -> zlen b < zlen utf8) -> zlen name = 64 -> exists utf8',
  returns (fun fuel => run (regul_program reg from) c_register_ul 0 fuel [(I32, f); (I32, if u then 1 else 0); (I32, if a then 1 else 0); (I32, if has then 1 else 0)]
      [("ulabel", (U8, ulabel_array u ++ rest)); ("utf8ulabel", (U8, utf8)); ("alabel", (U8, ulabel_array a ++ more)); ("insertname", (U8, name))])
    (code_of r, [("ulabel", (U8, ulabel_array u ++ rest)); ("utf8ulabel", (U8, utf8')); ("alabel", (U8, ulabel_array a ++ more)); ("insertname", (U8, inserted has r name))]).
(** [reg] is what the texts of idn2_register_u8 compute. *)
Definition register_is (U : uenv) (reg : option (list Z) -> option (list Z) -> Z -> Z + list Z) : Prop :=
  exists inner, (forall x, c_string x -> zlen x <= 255 -> ulabel_text U inner 0 x (inner x)) /\
  (forall s f, c_string s -> zlen s <= 1000000000 -> 0 <= f < 2147483648 -> ulabel_text U inner f s (reg (Some s) None f)) /\
  (forall u a f, (forall x, u = Some x -> c_string x) -> c_string a -> zlen a < 4611686018427387904 -> alabel_text U inner u a (reg u (Some a) f)).
(** [c] is the U-label [u] converted; no U-label needs no conversion. *)
Inductive converted (from : list Z -> option (list Z)) : option (list Z) -> option (list Z) -> Prop :=
| conv_none : converted from None None
| conv_some : forall s b, from s = Some b -> converted from (Some s) (Some b).
