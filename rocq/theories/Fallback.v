(** The fallback the manual recommends (doc/libidn2.texi:381-391): IDNA 2008
    first, and if that finds a disallowed character, transitional processing. *)
From Verif Require Import Base Uenv Lookup Api Heap.

(** doc/libidn2.texi:388-390. *)
Definition to_ascii_fallback (U : uenv) (buf : ptr) (p : cell) : result :=
  let* (rc, p) := to_ascii_8z U buf p IDN2_NONTRANSITIONAL in
  if rc =? IDN2_DISALLOWED then to_ascii_8z U buf p IDN2_TRANSITIONAL else Ok (rc, p).

(** The same with memory that can run out. *)
Definition m_to_ascii_fallback (E : allocator) (U : uenv) (junk : option nat) (buf : option addr) (p : slot) : M (Z * slot) :=
  let! (rc, p) := m_to_ascii_8z E U junk buf p IDN2_NONTRANSITIONAL in
  if rc =? IDN2_DISALLOWED then m_to_ascii_8z E U junk buf p IDN2_TRANSITIONAL else ret (rc, p).
