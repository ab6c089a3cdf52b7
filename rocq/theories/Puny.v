(** Model of lib/puny_encode.c and lib/puny_decode.c. *)
From Verif Require Import Base.

(** Bootstring parameters, puny_encode.c:83-86, puny_decode.c:84-87:
    base = 36, tmin = 1, tmax = 26, skew = 38, damp = 700,
    initial_bias = 72, initial_n = 0x80, delimiter = 0x2D. *)
Definition delimiter : Z := 45.
Definition initial_bias : Z := 72.
Definition initial_n : Z := 128.

(** encode_digit, puny_encode.c:97-103 (always called with flag = 0). *)
Definition encode_digit (d : Z) : Z := d + 22 + 75 * (if d <? 26 then 1 else 0).

(** decode_digit, puny_decode.c:96-107.  Note the final [return 0]. *)
Definition decode_digit (cp : Z) : Z :=
  if (97 <=? cp) && (cp <=? 122) then cp - 97
  else if (48 <=? cp) && (cp <=? 57) then cp - 48 + 26
  else if (65 <=? cp) && (cp <=? 90) then cp - 65
  else 0.

(** macro basic, puny_decode.c:90. *)
Definition dec_basic (cp : Z) : bool :=
  ((97 <=? cp) && (cp <=? 122)) || ((48 <=? cp) && (cp <=? 57))
  || ((65 <=? cp) && (cp <=? 90)) || (cp =? 45) || (cp =? 95).

(** The loop of adapt, puny_encode.c:126-131 (= puny_decode.c:130-135). *)
Fixpoint adapt_loop (fuel : nat) (k delta : Z) : out Z :=
  match fuel with
  | O => NoFuel
  | S f =>
      if 455 <? delta then adapt_loop f (u32 (k + 36)) (delta / 35)
      else if u32 (delta + 38) =? 0 then Undef
      else Ok (u32 (k + u32 (36 * delta) / u32 (delta + 38)))
  end.

(** adapt, puny_encode.c:117-132, puny_decode.c:121-136. *)
Definition adapt (delta numpoints : Z) (firsttime : bool) : out Z :=
  let d := if firsttime then delta / 700 else Z.shiftr delta 1 in
  if numpoints =? 0 then Undef
  else adapt_loop 32 0 (u32 (d + d / numpoints)).

(** Threshold t(k, bias), puny_encode.c:225-226, puny_decode.c:210-211. *)
Definition thresh (k bias : Z) : Z :=
  if k <=? bias then 1
  else if u32 (bias + 26) <=? k then 26
  else u32 (k - bias).

(** Emission of one generalized variable-length integer,
    puny_encode.c:221-233. *)
Fixpoint enc_varint (fuel : nat) (cap max_out : Z) (o : list Z)
         (bias q k : Z) : out (list Z) :=
  match fuel with
  | O => NoFuel
  | S f =>
      if max_out <=? zlen o then Fail IDN2_PUNYCODE_BIG_OUTPUT else
      let t := thresh k bias in
      if q <? t then put cap o (encode_digit q)
      else if u32 (36 - t) =? 0 then Undef else
        let* o' := put cap o (encode_digit (t + (q - t) mod (u32 (36 - t)))) in
        enc_varint f cap max_out o' bias ((q - t) / u32 (36 - t)) (u32 (k + 36))
  end.

(** State of the encoder's main loop: delta, output, bias, h. *)
Record est := mkest { e_delta : Z; e_out : list Z; e_bias : Z; e_h : Z }.

(** One pass over the input for the current [n], puny_encode.c:208-238. *)
Fixpoint enc_scan (cap max_out b n : Z) (l : list Z) (st : est) : out est :=
  match l with
  | [] => Ok st
  | c :: l' =>
      let* delta :=
        (if c <? n then
           let d := u32 (e_delta st + 1) in
           if d =? 0 then Fail IDN2_PUNYCODE_OVERFLOW else Ok d
         else Ok (e_delta st)) in
      if c =? n then
        let* o := enc_varint 64 cap max_out (e_out st) (e_bias st) delta 36 in
        let* bias := adapt delta (u32 (e_h st + 1)) (e_h st =? b) in
        enc_scan cap max_out b n l' (mkest 0 o bias (u32 (e_h st + 1)))
      else
        enc_scan cap max_out b n l'
                 (mkest delta (e_out st) (e_bias st) (e_h st))
  end.

(** Search for the next code point, puny_encode.c:192-198. *)
Definition enc_next (n : Z) (l : list Z) : Z :=
  fold_left (fun m c => if (n <=? c) && (c <? m) then c else m) l maxint.

(** Main encoding loop, puny_encode.c:187-241. *)
Fixpoint enc_main (fuel : nat) (cap max_out b : Z) (l : list Z)
         (n : Z) (st : est) : out (list Z) :=
  if e_h st <? zlen l then
    match fuel with
    | O => NoFuel
    | S f =>
        let m := enc_next n l in
        let h1 := u32 (e_h st + 1) in
        if h1 =? 0 then Undef else
        if u32 (maxint - e_delta st) / h1 <? u32 (m - n)
        then Fail IDN2_PUNYCODE_OVERFLOW
        else
          let delta := u32 (e_delta st + u32 (u32 (m - n) * h1)) in
          let* st' := enc_scan cap max_out b m l
                               (mkest delta (e_out st) (e_bias st) (e_h st)) in
          enc_main f cap max_out b l (u32 (m + 1))
                   (mkest (u32 (e_delta st' + 1)) (e_out st') (e_bias st') (e_h st'))
    end
  else Ok (e_out st).

(** Basic code points, puny_encode.c:162-173. *)
Fixpoint enc_basic (cap max_out : Z) (l o : list Z) : out (list Z) :=
  match l with
  | [] => Ok o
  | c :: l' =>
      if c <? 128 then
        if u64 (max_out - zlen o) <? 2 then Fail IDN2_PUNYCODE_BIG_OUTPUT
        else let* o' := put cap o c in enc_basic cap max_out l' o'
      else if (1114111 <? c) || ((55296 <=? c) && (c <=? 56319))
      then Fail IDN2_PUNYCODE_BAD_INPUT
      else enc_basic cap max_out l' o
  end.

(** _idn2_punycode_encode_internal, puny_encode.c:136-245.  [max_out] is the
    initial value of *output_length, [cap] the real size of output[]; the
    result is output[0 .. *output_length-1]. *)
Definition puny_encode (l : list Z) (max_out cap : Z) : out (list Z) :=
  if maxint <? zlen l then Fail IDN2_PUNYCODE_OVERFLOW else
  let* o := enc_basic cap max_out l [] in
  let b := u32 (zlen o) in
  let* o' := (if 0 <? b then put cap o delimiter else Ok o) in
  enc_main (S (length l)) cap max_out b l initial_n (mkest 0 o' initial_bias b).

(** First loop of the decoder, puny_decode.c:152-158: index of the last
    delimiter (0 if there is none). *)
Fixpoint dec_check (l : list Z) (j b : Z) : out Z :=
  match l with
  | [] => Ok b
  | c :: l' =>
      if dec_basic c then dec_check l' (j + 1) (if c =? delimiter then j else b)
      else Fail IDN2_PUNYCODE_BAD_INPUT
  end.

(** Copy of the basic code points, puny_decode.c:177-178. *)
Fixpoint dec_copy (cap : Z) (l o : list Z) : out (list Z) :=
  match l with
  | [] => Ok o
  | c :: l' => let* o' := put cap o c in dec_copy cap l' o'
  end.

(** One generalized variable-length integer, puny_decode.c:200-217.
    Returns the new i and the unread input. *)
Fixpoint dec_varint (inp : list Z) (bias i w k : Z) : out (Z * list Z) :=
  match inp with
  | [] => Fail IDN2_PUNYCODE_BAD_INPUT
  | c :: r =>
      let digit := decode_digit c in
      if 36 <=? digit then Fail IDN2_PUNYCODE_BAD_INPUT else
      if w =? 0 then Undef else
      if (maxint - i) / w <? digit then Fail IDN2_PUNYCODE_OVERFLOW else
      let i' := u32 (i + u32 (digit * w)) in
      let t := thresh k bias in
      if digit <? t then Ok (i', r) else
      if u32 (36 - t) =? 0 then Undef else
      if maxint / u32 (36 - t) <? w then Fail IDN2_PUNYCODE_OVERFLOW else
      dec_varint r bias i' (u32 (w * u32 (36 - t))) (u32 (k + 36))
  end.

(** Insertion at position i, puny_decode.c:234-238. *)
Definition insert_at (cap : Z) (o : list Z) (i n : Z) : out (list Z) :=
  if (zlen o + 1 <=? cap) && (0 <=? i) && (i <=? zlen o)
  then Ok (firstn (Z.to_nat i) o ++ n :: skipn (Z.to_nat i) o)
  else Undef.

(** Main decoding loop, puny_decode.c:190-239. *)
Fixpoint dec_main (fuel : nat) (cap max_out : Z) (inp o : list Z)
         (n i bias : Z) : out (list Z) :=
  match inp with
  | [] => Ok o
  | _ :: _ =>
      match fuel with
      | O => NoFuel
      | S f =>
          let outn := zlen o in
          let* (i1, rest) := dec_varint inp bias i 1 36 in
          let o1 := u32 (outn + 1) in
          let* bias' := adapt (u32 (i1 - i)) o1 (i =? 0) in
          if o1 =? 0 then Undef else
          if u32 (maxint - n) <? i1 / o1 then Fail IDN2_PUNYCODE_OVERFLOW else
          let n' := u32 (n + i1 / o1) in
          if (1114111 <? n') || ((55296 <=? n') && (n' <=? 56319))
          then Fail IDN2_PUNYCODE_BAD_INPUT else
          let i2 := i1 mod o1 in
          if max_out <=? outn then Fail IDN2_PUNYCODE_BIG_OUTPUT else
          let* o' := insert_at cap o i2 n' in
          dec_main f cap max_out rest o' n' (u32 (i2 + 1)) bias'
      end
  end.

(** _idn2_punycode_decode_internal, puny_decode.c:140-244. *)
Definition puny_decode (inp : list Z) (out_len cap : Z) : out (list Z) :=
  match inp with
  | [] => Fail IDN2_PUNYCODE_BAD_INPUT
  | _ :: _ =>
      let* b := dec_check inp 0 0 in
      let max_out := if maxint <? out_len then maxint else out_len in
      let* c := rd inp b in
      if c =? delimiter then
        if (b =? 0) || (b =? u64 (zlen inp - 1)) then Fail IDN2_PUNYCODE_BAD_INPUT
        else if max_out <=? b then Fail IDN2_PUNYCODE_BIG_OUTPUT
        else
          let* o := dec_copy cap (firstn (Z.to_nat b) inp) [] in
          let rest := skipn (Z.to_nat (b + 1)) inp in
          dec_main (length inp) cap max_out rest o initial_n 0 initial_bias
      else
        dec_main (length inp) cap max_out (skipn (Z.to_nat b) inp) []
                 initial_n 0 initial_bias
  end.

(* Sanity: "münchen" and a sample of tests/test-punycode.c. *)
Example enc_muenchen :
  puny_encode [109;252;110;99;104;101;110] 59 59
  = Ok [109;110;99;104;101;110;45;51;121;97].
Proof. vm_compute. reflexivity. Qed.
Example dec_muenchen :
  puny_decode [109;110;99;104;101;110;45;51;121;97] 63 63
  = Ok [109;252;110;99;104;101;110].
Proof. vm_compute. reflexivity. Qed.
