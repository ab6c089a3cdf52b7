(** C92: the C text of the Punycode coder, run by the rules of C11. *)
From Coq Require Import String.
From Verif Require Import Base PunyBase Puny SpecPuny SpecToAscii SpecPunyErr CLang CPuny SpecCPuny CPunyTop COrder CPunyCases.
Local Open Scope list_scope.
Local Open Scope Z_scope.

Theorem C92_decode_defined : forall ch s mo buf, char_type ch -> bytes s -> 0 <= mo < 4294967295 -> mo <= zlen buf ->
  exists rc len out, decode_returns ch s mo buf rc len out /\ zlen out = zlen buf /\ 0 <= len <= mo.
Proof. exact text_decode_defined. Qed.
Print Assumptions C92_decode_defined.
Theorem C92_decode : forall ch s mo buf, char_type ch -> bytes s -> 0 <= mo < 4294967295 -> mo <= zlen buf -> forall L, mo <= 109 ->
  ((exists rest, decode_returns ch s mo buf 0 (zlen L) (map Some L ++ rest)) <->
   Forall ldh_or_underscore s /\ rfc_decodes (canon s) L /\ Forall permitted L /\ Exists (fun c => 128 <= c) L /\ zlen L <= mo).
Proof. exact text_decode_rfc. Qed.
Print Assumptions C92_decode.
Theorem C92_decode_codes : forall ch s mo buf, char_type ch -> bytes s -> 0 <= mo < 4294967295 -> mo <= zlen buf -> forall rc,
  (rc <> 0 /\ exists out, decode_returns ch s mo buf rc mo out) <-> decode_fails mo s rc.
Proof. exact text_decode_codes. Qed.
Print Assumptions C92_decode_codes.
Example C92_decode_case : forall ch, char_type ch -> let room := repeat (@None Z) 63 in
  bytes [109;110;99;104;101;110;45;51;121;97] /\
  (exists rest, decode_returns ch [109;110;99;104;101;110;45;51;121;97] 63 room 0 7 (map Some [109;252;110;99;104;101;110] ++ rest)) /\
  (exists out, decode_returns ch [109;110;99;104;101;110;45;51;121;252] 63 room IDN2_PUNYCODE_BAD_INPUT 63 out) /\
  (exists out, decode_returns ch [] 63 room IDN2_PUNYCODE_BAD_INPUT 63 out) /\
  (exists out, decode_returns ch [57;57;57;57;57;57;57;57] 63 room IDN2_PUNYCODE_OVERFLOW 63 out) /\
  (exists out, decode_returns ch [109;110;99;104;101;110;45;51;121;97] 6 room IDN2_PUNYCODE_BIG_OUTPUT 6 out).
Proof. exact case_decode. Qed.

Theorem C92_encode_defined : forall ch l mo buf, char_type ch -> words l -> 0 <= mo < two64 -> mo <= zlen buf ->
  exists rc len out, encode_returns ch l mo buf rc len out /\ zlen out = zlen buf /\ 0 <= len <= mo.
Proof. exact text_encode_defined. Qed.
Print Assumptions C92_encode_defined.
Theorem C92_encode : forall ch l mo buf, char_type ch -> words l -> 0 <= mo < two64 -> mo <= zlen buf -> forall s, mo <= 109 ->
  ((exists rest, encode_returns ch l mo buf 0 (zlen s) (map Some s ++ rest)) <-> Forall permitted l /\ rfc_encodes l s /\ zlen s <= mo).
Proof. exact text_encode_rfc. Qed.
Print Assumptions C92_encode.
Theorem C92_encode_codes : forall ch l mo buf, char_type ch -> words l -> 0 <= mo < two64 -> mo <= zlen buf -> forall rc, mo <= 109 -> zlen l <= 4172415000 ->
  ((rc <> 0 /\ exists out, encode_returns ch l mo buf rc mo out) <-> encode_fails mo l rc).
Proof. exact text_encode_codes. Qed.
Print Assumptions C92_encode_codes.
Example C92_encode_case : forall ch, char_type ch -> let room := repeat (@None Z) 59 in
  words [109;252;110;99;104;101;110] /\
  (exists rest, encode_returns ch [109;252;110;99;104;101;110] 59 room 0 10 (map Some [109;110;99;104;101;110;45;51;121;97] ++ rest)) /\
  (exists out, encode_returns ch [109;252;110;99;104;101;110] 9 room IDN2_PUNYCODE_BIG_OUTPUT 9 out) /\
  (exists out, encode_returns ch [55296] 59 room IDN2_PUNYCODE_BAD_INPUT 59 out).
Proof. exact case_encode. Qed.

(** Any limit: the text does what the functions of Puny.v say, of which C01 to C07 and the rest speak. *)
Theorem C92_model : (forall ch s mo buf, char_type ch -> bytes s -> 0 <= mo < 4294967295 -> mo <= zlen buf ->
    match puny_decode s mo (zlen buf) with
    | Ok L => exists rest, zlen L + zlen rest = zlen buf /\ decode_returns ch s mo buf 0 (zlen L) (map Some L ++ rest)
    | Fail rc => exists out, zlen out = zlen buf /\ decode_returns ch s mo buf rc mo out
    | _ => False
    end) /\
  (forall ch l mo buf, char_type ch -> words l -> 0 <= mo < two64 -> mo <= zlen buf ->
    match puny_encode l mo (zlen buf) with
    | Ok s => exists rest, zlen s + zlen rest = zlen buf /\ encode_returns ch l mo buf 0 (zlen s) (map Some s ++ rest)
    | Fail rc => exists out, zlen out = zlen buf /\ encode_returns ch l mo buf rc mo out
    | _ => False
    end).
Proof. exact (conj decode_model encode_model). Qed.
Print Assumptions C92_model.

(** One machine encodes and another decodes, whatever char is on each. *)
Theorem C92_round_trip : forall ch ch' l mo buf s rest mo2 buf2, char_type ch -> char_type ch' -> words l -> 0 <= mo < two64 -> mo <= zlen buf ->
  encode_returns ch l mo buf 0 (zlen s) (map Some s ++ rest) ->
  Forall (fun c => c < 128 -> ldh_or_underscore c) l -> Exists (fun c => 128 <= c) l -> zlen l <= 110 -> zlen l <= mo2 < 4294967295 -> mo2 <= zlen buf2 ->
  exists rest2, decode_returns ch' s mo2 buf2 0 (zlen l) (map Some l ++ rest2).
Proof. exact text_round_trip. Qed.
Print Assumptions C92_round_trip.

(** The size claimed has to be there. *)
Theorem C92_claimed_size_refuted : forall ch, char_type ch -> exists s mo buf, bytes s /\ 0 <= mo < 4294967295 /\
  exists N, forall n, (N <= n)%nat -> run_decode ch n s mo buf = UB.
Proof. exact lying. Qed.
Print Assumptions C92_claimed_size_refuted.

(** No expression of the two files uses what another operand changes, so that the order of evaluation, which C11 leaves open, does not matter. *)
Theorem C92_order : (forall ch, forallb (fun f => all_sequenced (f_body f)) [c_decode_digit; c_encode_digit ch; c_adapt; c_punycode_decode; c_punycode_encode ch] = true) /\
  (forall rty call a b n st v st1 w st2, apart a b = true -> eval rty call n a st = Val (v, st1) -> eval rty call n b st1 = Val (w, st2) ->
   exists st1' st2', eval rty call n b st = Val (w, st1') /\ eval rty call n a st1' = Val (v, st2') /\ alike st2 st2').
Proof. exact (conj puny_sequenced swap). Qed.
Print Assumptions C92_order.
Example C92_order_case : exists a b st v st1 w st2, apart a b = false /\ eval (fun _ => I32) (fun _ _ _ _ => UB) 0 a st = Val (v, st1) /\ eval (fun _ => I32) (fun _ _ _ _ => UB) 0 b st1 = Val (w, st2) /\
  ~ exists st1' st2', eval (fun _ => I32) (fun _ _ _ _ => UB) 0 b st = Val (w, st1') /\ eval (fun _ => I32) (fun _ _ _ _ => UB) 0 a st1' = Val (v, st2') /\ alike st2 st2'.
Proof. exact order_matters. Qed.
