(** The text of lib/puny_decode.c and lib/puny_encode.c in the language of CLang.v. *)
From Coq Require Import String.
From Verif Require Import Base CLang.
Local Open Scope string_scope.
Local Open Scope list_scope.
Local Open Scope Z_scope.
Local Open Scope c_scope.

(** puny_decode.c:84-87, puny_encode.c:83-86; enumerators are ints. *)
Local Notation base := (int 36).
Local Notation tmin := (int 1).
Local Notation tmax := (int 26).
Local Notation skew := (int 38).
Local Notation damp := (int 700).
Local Notation initial_bias := (int 72).
Local Notation initial_n := (int 128).
Local Notation delimiter := (int 45).
(** puny_decode.c:112, puny_encode.c:108: static const punycode_uint maxint = -1. *)
Local Notation maxint := (ECast U32 (int 0 - int 1)).
(** puny_decode.c:70-74 *)
Local Notation punycode_success := (SReturn (int IDN2_OK)).
Local Notation punycode_overflow := (SReturn (int IDN2_PUNYCODE_OVERFLOW)).
Local Notation punycode_big_output := (SReturn (int IDN2_PUNYCODE_BIG_OUTPUT)).
Local Notation punycode_bad_input := (SReturn (int IDN2_PUNYCODE_BAD_INPUT)).

(** puny_decode.c:90 *)
Definition basic (cp : expr) : expr :=
  (cp >= 97 AND cp <= 122) OR (cp >= 48 AND cp <= 57) OR (cp >= 65 AND cp <= 90) OR cp == 45 OR cp == 95.
(** puny_decode.c:96-107 *)
Definition c_decode_digit : cfun := mkfun U32 [] [("cp", I32)] []
 (when ("cp" >= 97 AND "cp" <= 122)
    SReturn ("cp" - 97);;
  when ("cp" >= 48 AND "cp" <= 57)
    SReturn ("cp" - 48 + 26);;
  when ("cp" >= 65 AND "cp" <= 90)
    SReturn ("cp" - 65);;
  SReturn 0).
(** puny_decode.c:121-136, puny_encode.c:117-132 *)
Definition c_adapt : cfun := mkfun U32 [] [("delta", U32); ("numpoints", U32); ("firsttime", I32)] [("k", U32)]
 ("delta" <- ("firsttime" ? "delta" / damp : "delta" >> 1);;
  "delta" += "delta" / "numpoints";;
  for_ ("k" <- 0; "delta" > ((base - tmin) * tmax) / 2; "k" += base)
    "delta" /= base - tmin;;
  SReturn ("k" + (base - tmin + 1) * "delta" / ("delta" + skew))).

(** puny_decode.c:140-244 *)
Definition c_punycode_decode : cfun := mkfun I32 ["input"; "output_length"; "output"] [("input_length", U64)]
  [("n", U32); ("out", U32); ("i", U32); ("max_out", U32); ("bias", U32); ("oldi", U32); ("w", U32); ("k", U32); ("digit", U32); ("t", U32);
   ("b", U64); ("j", U64); ("in", U64)]
 ("out" <- 0;;
  "b" <- 0;;
  when (! "input_length")
    punycode_bad_input;;
  (* Check that all chars are basic *)
  for_ ("j" <- 0; "j" < "input_length"; SExp (EPre "j"))
    (when (! basic ("input" @ "j"))
       punycode_bad_input;;
     when ("input" @ "j" == delimiter)
       "b" <- "j");;
  "max_out" <- ("output_length" @ 0 > maxint ? maxint : ECast U32 ("output_length" @ 0));;
  when ("input" @ "b" == delimiter)
    (when (! "b" OR "b" == "input_length" - 1)
       punycode_bad_input;;
     when ("b" >= "max_out")
       punycode_big_output;;
     for_ ("j" <- 0; "j" < "b"; SExp (EPost "j"))
       SStore "output" (EPost "out") ("input" @ "j");;
     "b" += 1);;
  (* Initialize the state: *)
  "n" <- initial_n;;
  "i" <- 0;;
  "bias" <- initial_bias;;
  (* Main decoding loop *)
  for_ ("in" <- "b"; "in" < "input_length"; SExp (EPre "out"))
    (for_ (("oldi" <- "i";; "w" <- 1;; "k" <- base); 1; "k" += base)
       (when ("in" >= "input_length")
          punycode_bad_input;;
        "digit" <- ECall "decode_digit" [] ["input" @ (EPost "in")];;
        when ("digit" >= base)
          punycode_bad_input;;
        when ("digit" > (maxint - "i") / "w")
          punycode_overflow;;
        "i" += "digit" * "w";;
        "t" <- ("k" <= "bias" ? tmin : ("k" >= "bias" + tmax ? tmax : "k" - "bias"));;
        when ("digit" < "t")
          SBreak;;
        when ("w" > maxint / (base - "t"))
          punycode_overflow;;
        "w" *= (base - "t"));;
     "bias" <- ECall "adapt" [] ["i" - "oldi"; "out" + 1; "oldi" == 0];;
     when ("i" / ("out" + 1) > maxint - "n")
       punycode_overflow;;
     "n" += "i" / ("out" + 1);;
     when ("n" > 1114111 OR ("n" >= 55296 AND "n" <= 56319))
       punycode_bad_input;;
     "i" %= ("out" + 1);;
     when ("out" >= "max_out")
       punycode_big_output;;
     SMove "output" [EVar "i"; int 1] [EVar "i"] (("out" - "i") * EInt U64 4);;
     SStore "output" (EPost "i") "n");;
  SStore "output_length" 0 (ECast U64 "out");;
  punycode_success).

(** puny_encode.c:97-103; [ch] is the type char *)
Definition c_encode_digit (ch : cty) : cfun := mkfun ch [] [("d", U32); ("flag", I32)] []
 (SReturn ("d" + 22 + 75 * ("d" < 26) - (("flag" != 0) << 5))).
(** puny_encode.c:89 *)
Definition basic_cp (cp : expr) : expr := ECast U32 cp < 128.
(** puny_encode.c:136-245 *)
Definition c_punycode_encode (ch : cty) : cfun := mkfun I32 ["input"; "output_length"; "output"] [("input_length_orig", U64)]
  [("input_length", U32); ("n", U32); ("delta", U32); ("h", U32); ("b", U32); ("bias", U32); ("j", U32); ("m", U32); ("q", U32); ("k", U32); ("t", U32);
   ("out", U64); ("max_out", U64)]
 (when ("input_length_orig" > maxint)
    punycode_overflow;;
  "input_length" <- ECast U32 "input_length_orig";;
  "n" <- initial_n;;
  "delta" <- 0;;
  "out" <- 0;;
  "max_out" <- "output_length" @ 0;;
  "bias" <- initial_bias;;
  for_ ("j" <- 0; "j" < "input_length"; SExp (EPre "j"))
    (test (basic_cp ("input" @ "j"))
       (when ("max_out" - "out" < 2)
          punycode_big_output;;
        SStore "output" (EPost "out") (ECast ch ("input" @ "j")))
     else when ("input" @ "j" > 1114111 OR ("input" @ "j" >= 55296 AND "input" @ "j" <= 56319))
       punycode_bad_input);;
  "h" <- EAsg "b" (ECast U32 "out");;
  when ("b" > 0)
    SStore "output" (EPost "out") delimiter;;
  SLoop ("h" < "input_length") SSkip
    (for_ (("m" <- maxint;; "j" <- 0); "j" < "input_length"; SExp (EPre "j"))
       (when ("input" @ "j" >= "n" AND "input" @ "j" < "m")
          "m" <- "input" @ "j");;
     when ("m" - "n" > (maxint - "delta") / ("h" + 1))
       punycode_overflow;;
     "delta" += ("m" - "n") * ("h" + 1);;
     "n" <- "m";;
     for_ ("j" <- 0; "j" < "input_length"; SExp (EPre "j"))
       (when ("input" @ "j" < "n")
          (when (EPre "delta" == 0)
             punycode_overflow);;
        when ("input" @ "j" == "n")
          (for_ (("q" <- "delta";; "k" <- base); 1; "k" += base)
             (when ("out" >= "max_out")
                punycode_big_output;;
              "t" <- ("k" <= "bias" ? tmin : ("k" >= "bias" + tmax ? tmax : "k" - "bias"));;
              when ("q" < "t")
                SBreak;;
              SStore "output" (EPost "out") (ECall "encode_digit" [] ["t" + ("q" - "t") mod (base - "t"); int 0]);;
              "q" <- ("q" - "t") / (base - "t"));;
           SStore "output" (EPost "out") (ECall "encode_digit" [] [EVar "q"; int 0]);;
           "bias" <- ECall "adapt" [] [EVar "delta"; "h" + 1; "h" == "b"];;
           "delta" <- 0;;
           SExp (EPre "h")));;
     SExp (EPre "delta");; SExp (EPre "n"));;
  SStore "output_length" 0 "out";;
  punycode_success).

Definition puny_program (ch : cty) : prog := mkprog no_lib
  [("decode_digit", c_decode_digit); ("encode_digit", c_encode_digit ch); ("adapt", c_adapt)].

Lemma puny_sequenced : forall ch, forallb (fun f => all_sequenced (f_body f)) [c_decode_digit; c_encode_digit ch; c_adapt; c_punycode_decode; c_punycode_encode ch] = true.
Proof. reflexivity. Qed.

Definition run_decode (ch : cty) (n : nat) (s : list Z) (mo : Z) (buf : list (option Z)) :=
  run (puny_program ch) c_punycode_decode 1 n [(U64, zlen s)] [("input", (ch, map (fun b => Some (conv ch b)) s)); ("output_length", (U64, [Some mo])); ("output", (U32, buf))].
Definition run_encode (ch : cty) (n : nat) (l : list Z) (mo : Z) (buf : list (option Z)) :=
  run (puny_program ch) (c_punycode_encode ch) 1 n [(U64, zlen l)] [("input", (U32, map Some l)); ("output_length", (U64, [Some mo])); ("output", (ch, buf))].
