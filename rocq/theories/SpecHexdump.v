(** What the debug output of the command line tool says. *)
From Coq Require Import String.
From Verif Require Import Base Uenv SpecUtf8 SpecCText SpecLookup Lookup Api Scan Cli SpecCli.
Local Open Scope list_scope.
Local Open Scope Z_scope.

(** A number in base 10 or 16, in small letters, with at least [w] digits and no
    more zeros in front than that takes. *)
Definition numeral (base w n : Z) (ds : list Z) : Prop :=
  Forall (fun c => 48 <= c <= 57 \/ 97 <= c <= 102) ds /\ value base ds 0 = Some n /\
  (zlen ds = w \/ (w < zlen ds /\ exists c r, ds = c :: r /\ c <> 48)).

(** The lines "<prefix>[<index>] = <head><element>". *)
Inductive dump_lines (prefix head : list Z) (w : Z) : Z -> list Z -> list Z -> Prop :=
| no_lines : forall i, dump_lines prefix head w i [] []
| a_line : forall i c l ni nc t, numeral 10 1 i ni -> numeral 16 w c nc -> dump_lines prefix head w (i + 1) l t ->
    dump_lines prefix head w i (c :: l) (prefix ++ [91] ++ ni ++ text "] = " ++ head ++ nc ++ [10] ++ t).

(** The bytes of the name, its conversion to UTF-8 if that is different, and its
    code points. *)
Definition dump_of (L : locale) (prefix s t : list Z) : Prop :=
  exists t1 t2 t3, t = t1 ++ t2 ++ t3 /\ dump_lines prefix (text "0x") 2 0 s t1 /\
    match from_locale L s with
    | None => t2 = [] /\ t3 = []
    | Some u => (u = s -> t2 = []) /\ (u <> s -> dump_lines (text "UTF-8 " ++ prefix) (text "0x") 2 0 u t2) /\
                (forall l, utf8 l u -> dump_lines (text "UCS-4 " ++ prefix) (text "U+") 4 0 l t3) /\ ((~ exists l, utf8 l u) -> t3 = [])
    end.

(** The bytes of a name are on its lines, so a dump can be read back. *)
Definition nothing_from_nothing (L : locale) : Prop := forall u, from_locale L [] = Some u -> u = [].

(** What is dumped in a session: each name before it is converted and, under the
    heading of the output, again afterwards; the last one only before if it is
    refused.  The two commands are not dumped. *)
Inductive trace (w : world) (a : options) (f : Z) : list (list Z) -> list (dump * list Z) -> Prop :=
| tr_end : trace w a f [] []
| tr_command : forall x xs s d, content x s -> s = [115;104;111;119;32;119] \/ s = [115;104;111;119;32;99] -> trace w a f xs d -> trace w a f (x :: xs) d
| tr_name : forall x xs s r d, content x s -> s <> [115;104;111;119;32;119] -> s <> [115;104;111;119;32;99] ->
    convert w a f s = Ok (IDN2_OK, Some (Some r)) -> trace w a f xs d -> trace w a f (x :: xs) ((Dinput, s) :: (Doutput, s) :: d)
| tr_stop : forall x xs s rc, content x s -> refused w a f s rc -> trace w a f (x :: xs) [(Dinput, s)].
Definition heading (p : dump) : list Z := match p with Dinput => text "input" | Doutput => text "output" end.
Inductive dumps_of (L : locale) : list (dump * list Z) -> list Z -> Prop :=
| du_end : dumps_of L [] []
| du_more : forall p s d t t', dump_of L (heading p) s t -> dumps_of L d t' -> dumps_of L ((p, s) :: d) (t ++ t').
(** The names dumped by a run, and those that are not empty. *)
Definition logged (ev : list event) : list (dump * list Z) := flat_map (fun e => match e with Hexdump p s => [(p, s)] | _ => [] end) ev.
Definition shown (ev : list event) : list (dump * list Z) :=
  flat_map (fun e => match e with Hexdump p (c :: s) => [(p, c :: s)] | _ => [] end) ev.
