(** C101: the C text of idn2_to_unicode_44i as a whole, run by the rules of C11. *)
From Coq Require Import String.
From Verif Require Import Base SpecUtf8 SpecLookup SpecUnicode SpecUniRefusal CLang SpecCPuny SpecCWrap SpecCUni SpecCUni44 CUnicodeCases CUniCases CUni44Top.
Local Open Scope string_scope.
Local Open Scope list_scope.
Local Open Scope Z_scope.

(** The call of idn2_to_unicode_4z4z can be what the theorems ask of it. *)
Theorem C101_has : exists g, uni4_is g.
Proof. exact have_44. Qed.
Print Assumptions C101_has.
Theorem C101_size : forall g n, 0 <= n -> n + 1 < 4611686018427387904 -> text_44i_size g n (4 * (n + 1)).
Proof. exact size_44. Qed.
Print Assumptions C101_size.
(** The elements up to the first zero have a Unicode form [d]: as much of it is written as there is
    room for, and its length. *)
Theorem C101_given : forall g, uni4_is g -> forall l v b d ho hl out ol, zlen l < 100000000000000000 -> until_zero l v -> utf8 v b -> unicode_name b d -> 0 <= ol < two64 ->
  (ho = true -> hl = true -> Z.min (zlen d) ol <= zlen out) ->
  text_44i g l ho hl out ol IDN2_OK (first_of (if ho && hl then Nat.min (length d) (Z.to_nat ol) else 0) d out) (if hl then zlen d else ol).
Proof. exact t44_ok. Qed.
Print Assumptions C101_given.
Example C101_given_case : uni4_is g_of /\ until_zero (buecher_in ++ [0; 55296]) buecher_in /\ utf8 buecher_in buecher /\ unicode_name buecher buecher_u /\ let P := text_44i g_of (buecher_in ++ [0; 55296]) in
  P true true (repeat (Some 7) 4) 4 IDN2_OK (map Some [98; 252; 99; 104]) 9 /\ P true true (repeat None 10) 10 IDN2_OK (map Some buecher_u ++ [None]) 9 /\
  P false true [] 4 IDN2_OK [] 9 /\ P true false [None] 4 IDN2_OK [None] 4.
Proof. exact case_44. Qed.
(** Else the code is returned, and nothing is written. *)
Theorem C101_refused : forall g, uni4_is g -> forall l v rc ho hl out ol, zlen l < 100000000000000000 -> until_zero l v ->
  (~ exists b, utf8 v b) /\ rc = IDN2_ENCODING_ERROR \/ (exists b, utf8 v b /\ unicode_refused b rc) -> text_44i g l ho hl out ol rc out ol.
Proof. exact t44_code. Qed.
Print Assumptions C101_refused.
Example C101_refused_case : until_zero [55296] [55296] /\ text_44i g_of [55296] true true [None] 1 IDN2_ENCODING_ERROR [None] 1 /\ text_44i g_of (repeat 97 64) true true [Some 5] 1 IDN2_TOO_BIG_LABEL [Some 5] 1.
Proof. exact case_44_code. Qed.
(** One of the two applies, and the text returns in one way only. *)
Theorem C101_either : forall v, ~ In 0 v -> zlen v < 100000000000000000 -> (exists b d, utf8 v b /\ unicode_name b d) \/
  exists rc, rc <> IDN2_OK /\ ((~ exists b, utf8 v b) /\ rc = IDN2_ENCODING_ERROR \/ exists b, utf8 v b /\ unicode_refused b rc).
Proof. exact either_44. Qed.
Print Assumptions C101_either.
Theorem C101_once : forall g l ho hl out ol rc1 o1 n1 rc2 o2 n2, text_44i g l ho hl out ol rc1 o1 n1 -> text_44i g l ho hl out ol rc2 o2 n2 -> rc1 = rc2 /\ o1 = o2 /\ n1 = n2.
Proof. exact t44_once. Qed.
Print Assumptions C101_once.
