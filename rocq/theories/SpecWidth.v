(** Names whose mapped length does not fit a size of [W] bits. *)
From Verif Require Import Base DataTypes SpecUtf8 SpecTables SpecLookup.

(** UTS 46 maps [src] to [n] code points; none of [src] is disallowed. *)
Definition maps_to_length (flags : Z) (src : list Z) (n : Z) : Prop :=
  exists l, utf8 l src /\ Forall (fun c => status_of c <> Disallowed) l /\ n = zlen (uts46_map (opt_transitional flags) (opt_std3 flags) l).

(** That length is too large for a size, and what is left of it modulo 2^W
    passes for the length of a domain name. *)
Definition passes_wrapped (W flags : Z) (src : list Z) : Prop :=
  exists n, maps_to_length flags src n /\ 2 ^ W <= n /\ n mod 2 ^ W < 255.

(** The mapping of UTS 46 is asked for (it is by default). *)
Definition mapping_on (flags : Z) : Prop := ~ bad_flags flags /\ opt_no_tr46 flags = false.

(** U+FDFA, in UTF-8 and how often. *)
Definition fdfa : Z := 0xFDFA.
Definition fdfa_utf8 : list Z := [0xEF; 0xB7; 0xBA].
Fixpoint times {A} (n : nat) (l : list A) : list A := match n with O => [] | S k => l ++ times k l end.

(** The most that UTS 46 can make of [b] bytes of UTF-8. *)
Definition growth_bound (b : Z) : Z := 18 * (b / 3) + (if b mod 3 =? 0 then 0 else if b mod 3 =? 1 then 1 else 3).
