(** What it means that the C text returns. *)
From Coq Require Import String.
From Verif Require Import Base CLang CPuny.
Local Open Scope string_scope.
Local Open Scope list_scope.
Local Open Scope Z_scope.

(** The execution comes to an end, with no undefined behaviour on the way, and yields
    [x]: however large the bound on the steps, once it is large enough. *)
Definition returns {A} (run : nat -> res A) (x : A) : Prop := exists N, forall n, (N <= n)%nat -> run n = Val x.

(** char is one of the two (C11 6.2.5/15). *)
Definition char_type (ch : cty) : Prop := ch = I8 \/ ch = U8.

(** punycode_decode, called with the bytes [s] and *output_length = [mo] and an array of
    [zlen buf] cells, returns [rc] and leaves *output_length = [len] and the array [out];
    the input is as it was. *)
Definition decode_returns (ch : cty) (s : list Z) (mo : Z) (buf : list (option Z)) (rc len : Z) (out : list (option Z)) : Prop :=
  returns (fun n => run_decode ch n s mo buf)
    (rc, [("input", (ch, map (fun b => Some (conv ch b)) s)); ("output_length", (U64, [Some len])); ("output", (U32, out))]).
Definition encode_returns (ch : cty) (l : list Z) (mo : Z) (buf : list (option Z)) (rc len : Z) (out : list (option Z)) : Prop :=
  returns (fun n => run_encode ch n l mo buf)
    (rc, [("input", (U32, map Some l)); ("output_length", (U64, [Some len])); ("output", (ch, out))]).

(** Bytes and code points as the callers have them. *)
Definition bytes (s : list Z) : Prop := Forall (fun b => 0 <= b <= 255) s /\ zlen s < two64.
Definition words (l : list Z) : Prop := Forall (fun c => 0 <= c < two32) l /\ zlen l < two64.

(** States no program can tell apart. *)
Definition alike (s t : cst) : Prop := arrs s = arrs t /\ forall x, assoc x (vars s) = assoc x (vars t).
