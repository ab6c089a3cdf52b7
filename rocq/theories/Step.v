(** The conversions once more, counting the loop iterations of the C code: each
    [c_f] is the model's [f] with [tick] at the head of every loop and [spend]
    for the loops of the C library (the lines of /repo are cited at [f]).  What
    is counted is said in Cost.v.
    StepProofs.v proves that [c_f] computes the same result as [f]. *)
From Coq Require Import String.
From Verif Require Import Base Uenv DataTypes Bsearch Tables Gentr46 Tr46Tables Tr46Map Utf8 Bidi Context Idna Puny Lookup Api Register.
Local Open Scope Z_scope.

(** Iterations so far and the outcome. *)
Definition run (A : Type) : Type := (Z * out A)%type.
Definition steps {A} (r : run A) : Z := fst r.
Definition outcome {A} (r : run A) : out A := snd r.

Definition pure {A} (m : out A) : run A := (0, m).
Definition spend {A} (n : Z) (r : run A) : run A := (n + fst r, snd r).
Definition tick {A} (r : run A) : run A := spend 1 r.
Definition seq {A B} (r : run A) (k : A -> run B) : run B :=
  match snd r with
  | Ok a => spend (fst r) (k a)
  | Fail rc => (fst r, Fail rc)
  | Undef => (fst r, Undef)
  | NoFuel => (fst r, NoFuel)
  end.
Notation "'let+' x ':=' e 'in' k" := (seq e (fun x => k))
  (at level 200, x pattern, e at level 100, k at level 200).

(** Loops with an exit: existsb, forallb, memcmp, c_strncasecmp. *)
Fixpoint c_existsb {A} (f : A -> bool) (l : list A) : run bool :=
  match l with
  | [] => pure (Ok false)
  | c :: r => tick (if f c then pure (Ok true) else c_existsb f r)
  end.
Fixpoint c_forallb {A} (f : A -> bool) (l : list A) : run bool :=
  match l with
  | [] => pure (Ok true)
  | c :: r => tick (if f c then c_forallb f r else pure (Ok false))
  end.
Fixpoint c_list_eqb (a b : list Z) : run bool :=
  match a, b with
  | [], [] => pure (Ok true)
  | x :: a', y :: b' => tick (if x =? y then c_list_eqb a' b' else pure (Ok false))
  | _, _ => pure (Ok false)
  end.
Fixpoint c_casecmp_eq (a b : list Z) : run bool :=
  match a, b with
  | [], [] => pure (Ok true)
  | x :: a', y :: b' => tick (if c_tolower x =? c_tolower y then c_casecmp_eq a' b' else pure (Ok false))
  | _, _ => pure (Ok false)
  end.
(** Conversions between UTF-8 and UTF-32: one per element read. *)
Definition c_u8_to_u32 (s : list Z) : run (list Z) := spend (zlen s) (pure (conv (u8_to_u32 s) IDN2_ENCODING_ERROR)).
Definition c_u32_to_u8 (l : list Z) : run (list Z) := spend (zlen l) (pure (conv (u32_to_u8 l) IDN2_ENCODING_ERROR)).

(** * tables.c, tr46map.c *)
Fixpoint c_bsearch_loop (fuel : nat) (cmp : Z -> out Z) (lo hi : Z) : run (option Z) :=
  match fuel with
  | O => pure NoFuel
  | S fuel =>
      if lo <? hi then
        tick (let idx := (lo + hi) / 2 in
        let+ r := pure (cmp idx) in
        if r <? 0 then c_bsearch_loop fuel cmp lo idx
        else if 0 <? r then c_bsearch_loop fuel cmp (idx + 1) hi
        else pure (Ok (Some idx)))
      else pure (Ok None)
  end.
Definition c_bsearch (cmp : Z -> out Z) (n : Z) : run (option Z) := c_bsearch_loop (S (Z.to_nat n)) cmp 0 n.
Definition c_property (cp : Z) : run prop :=
  let+ r := c_bsearch (fun i => let* e := elem idna_table i in Ok (compare_prop cp e)) (zlen idna_table) in
  match r with
  | Some i => let+ e := pure (elem idna_table i) in pure (Ok (ie_state e))
  | None => pure (Ok UNASSIGNED)
  end.
Definition c_disallowed_p (cp : Z) : run bool := let+ p := c_property cp in pure (Ok (prop_eqb p DISALLOWED)).
Definition c_contextj_p (cp : Z) : run bool := let+ p := c_property cp in pure (Ok (prop_eqb p CONTEXTJ)).
Definition c_contexto_p (cp : Z) : run bool := let+ p := c_property cp in pure (Ok (prop_eqb p CONTEXTO)).
Definition c_unassigned_p (cp : Z) : run bool := let+ p := c_property cp in pure (Ok (prop_eqb p UNASSIGNED)).

Definition c_search_map (c : Z) (tbl : list Z) (size : Z) : run (idnamap * Z) :=
  let+ r := c_bsearch (fun i => compare_idna_map c (Tr46Map.ptr tbl size i)) (zlen tbl / size) in
  match r with
  | None => pure (Ok (IdnaMap 0 0 0 0 0, -1))
  | Some i => let+ m := pure (fill_map c (Tr46Map.ptr tbl size i)) in pure (Ok (m, 0))
  end.
Definition c_get_idna_map (c : Z) : run (idnamap * Z) :=
  if c <=? 0xff then c_search_map c (t_map8 tr46_data) 5
  else if c <=? 0xffff then c_search_map c (t_map16 tr46_data) 7
  else if c <=? 0xffffff then c_search_map c (t_map24 tr46_data) 8
  else pure (Ok (IdnaMap 0 0 0 0 0, -1)).
Fixpoint c_stream_cp (s : list Z) (cp : Z) : run (Z * list Z) :=
  match s with
  | [] => pure Undef
  | b :: r =>
      tick (let cp' := u32 (Z.lor (u32 (Z.shiftl cp 7)) (Z.land b 0x7f)) in
      if Z.land b 0x80 =? 0 then pure (Ok (cp', r)) else c_stream_cp r cp')
  end.
Fixpoint c_stream_cps (n : nat) (s : list Z) : run (list Z) :=
  match n with
  | O => pure (Ok [])
  | S n' =>
      tick (let+ p := c_stream_cp s 0 in
      let+ l := c_stream_cps n' (snd p) in
      pure (Ok (fst p :: l)))
  end.
Definition c_get_map_data (m : idnamap) : run (list Z) :=
  if zlen (t_mapdata tr46_data) <? m_off m then pure Undef
  else c_stream_cps (Z.to_nat (m_n m)) (skipn (Z.to_nat (m_off m)) (t_mapdata tr46_data)).
Definition c_get_nfcqc_map (c : Z) : run (option nfcqc) :=
  let+ r := c_bsearch (fun i => let* q := elem (t_nfcqc tr46_data) i in Ok (compare_nfcqc c q)) (zlen (t_nfcqc tr46_data)) in
  match r with
  | None => pure (Ok None)
  | Some i => let+ q := pure (elem (t_nfcqc tr46_data) i) in pure (Ok (Some q))
  end.

(** * puny_encode.c, puny_decode.c *)
Fixpoint c_adapt_loop (fuel : nat) (k delta : Z) : run Z :=
  match fuel with
  | O => pure NoFuel
  | S f =>
      if 455 <? delta then tick (c_adapt_loop f (u32 (k + 36)) (delta / 35))
      else if u32 (delta + 38) =? 0 then pure Undef
      else pure (Ok (u32 (k + u32 (36 * delta) / u32 (delta + 38))))
  end.
Definition c_adapt (delta numpoints : Z) (firsttime : bool) : run Z :=
  let d := if firsttime then delta / 700 else Z.shiftr delta 1 in
  if numpoints =? 0 then pure Undef
  else c_adapt_loop 32 0 (u32 (d + d / numpoints)).
Fixpoint c_enc_varint (fuel : nat) (cap max_out : Z) (o : list Z) (bias q k : Z) : run (list Z) :=
  match fuel with
  | O => pure NoFuel
  | S f =>
      tick (if max_out <=? zlen o then pure (Fail IDN2_PUNYCODE_BIG_OUTPUT) else
      let t := thresh k bias in
      if q <? t then pure (put cap o (encode_digit q))
      else if u32 (36 - t) =? 0 then pure Undef else
        let+ o' := pure (put cap o (encode_digit (t + (q - t) mod (u32 (36 - t))))) in
        c_enc_varint f cap max_out o' bias ((q - t) / u32 (36 - t)) (u32 (k + 36)))
  end.
Fixpoint c_enc_scan (cap max_out b n : Z) (l : list Z) (st : est) : run est :=
  match l with
  | [] => pure (Ok st)
  | c :: l' =>
      tick (let+ delta :=
        pure (if c <? n then
                let d := u32 (e_delta st + 1) in
                if d =? 0 then Fail IDN2_PUNYCODE_OVERFLOW else Ok d
              else Ok (e_delta st)) in
      if c =? n then
        let+ o := c_enc_varint 64 cap max_out (e_out st) (e_bias st) delta 36 in
        let+ bias := c_adapt delta (u32 (e_h st + 1)) (e_h st =? b) in
        c_enc_scan cap max_out b n l' (mkest 0 o bias (u32 (e_h st + 1)))
      else
        c_enc_scan cap max_out b n l' (mkest delta (e_out st) (e_bias st) (e_h st)))
  end.
(** The search for the next code point visits every element. *)
Definition c_enc_next (n : Z) (l : list Z) : run Z := spend (zlen l) (pure (Ok (enc_next n l))).
Fixpoint c_enc_main (fuel : nat) (cap max_out b : Z) (l : list Z) (n : Z) (st : est) : run (list Z) :=
  if e_h st <? zlen l then
    match fuel with
    | O => pure NoFuel
    | S f =>
        tick (let+ m := c_enc_next n l in
        let h1 := u32 (e_h st + 1) in
        if h1 =? 0 then pure Undef else
        if u32 (maxint - e_delta st) / h1 <? u32 (m - n)
        then pure (Fail IDN2_PUNYCODE_OVERFLOW)
        else
          let delta := u32 (e_delta st + u32 (u32 (m - n) * h1)) in
          let+ st' := c_enc_scan cap max_out b m l (mkest delta (e_out st) (e_bias st) (e_h st)) in
          c_enc_main f cap max_out b l (u32 (m + 1))
                   (mkest (u32 (e_delta st' + 1)) (e_out st') (e_bias st') (e_h st')))
    end
  else pure (Ok (e_out st)).
Fixpoint c_enc_basic (cap max_out : Z) (l o : list Z) : run (list Z) :=
  match l with
  | [] => pure (Ok o)
  | c :: l' =>
      tick (if c <? 128 then
        if u64 (max_out - zlen o) <? 2 then pure (Fail IDN2_PUNYCODE_BIG_OUTPUT)
        else let+ o' := pure (put cap o c) in c_enc_basic cap max_out l' o'
      else if (1114111 <? c) || ((55296 <=? c) && (c <=? 56319))
      then pure (Fail IDN2_PUNYCODE_BAD_INPUT)
      else c_enc_basic cap max_out l' o)
  end.
Definition c_puny_encode (l : list Z) (max_out cap : Z) : run (list Z) :=
  if maxint <? zlen l then pure (Fail IDN2_PUNYCODE_OVERFLOW) else
  let+ o := c_enc_basic cap max_out l [] in
  let b := u32 (zlen o) in
  let+ o' := pure (if 0 <? b then put cap o delimiter else Ok o) in
  c_enc_main (S (length l)) cap max_out b l initial_n (mkest 0 o' initial_bias b).

Fixpoint c_dec_check (l : list Z) (j b : Z) : run Z :=
  match l with
  | [] => pure (Ok b)
  | c :: l' =>
      tick (if dec_basic c then c_dec_check l' (j + 1) (if c =? delimiter then j else b)
      else pure (Fail IDN2_PUNYCODE_BAD_INPUT))
  end.
Fixpoint c_dec_copy (cap : Z) (l o : list Z) : run (list Z) :=
  match l with
  | [] => pure (Ok o)
  | c :: l' => tick (let+ o' := pure (put cap o c) in c_dec_copy cap l' o')
  end.
Fixpoint c_dec_varint (inp : list Z) (bias i w k : Z) : run (Z * list Z) :=
  tick match inp with
  | [] => pure (Fail IDN2_PUNYCODE_BAD_INPUT)
  | c :: r =>
      let digit := decode_digit c in
      if 36 <=? digit then pure (Fail IDN2_PUNYCODE_BAD_INPUT) else
      if w =? 0 then pure Undef else
      if (maxint - i) / w <? digit then pure (Fail IDN2_PUNYCODE_OVERFLOW) else
      let i' := u32 (i + u32 (digit * w)) in
      let t := thresh k bias in
      if digit <? t then pure (Ok (i', r)) else
      if u32 (36 - t) =? 0 then pure Undef else
      if maxint / u32 (36 - t) <? w then pure (Fail IDN2_PUNYCODE_OVERFLOW) else
      c_dec_varint r bias i' (u32 (w * u32 (36 - t))) (u32 (k + 36))
  end.
(** The memmove of the elements behind i. *)
Definition c_insert_at (cap : Z) (o : list Z) (i n : Z) : run (list Z) := spend (zlen o - i) (pure (insert_at cap o i n)).
Fixpoint c_dec_main (fuel : nat) (cap max_out : Z) (inp o : list Z) (n i bias : Z) : run (list Z) :=
  match inp with
  | [] => pure (Ok o)
  | _ :: _ =>
      match fuel with
      | O => pure NoFuel
      | S f =>
          tick (let outn := zlen o in
          let+ p := c_dec_varint inp bias i 1 36 in
          let (i1, rest) := p in
          let o1 := u32 (outn + 1) in
          let+ bias' := c_adapt (u32 (i1 - i)) o1 (i =? 0) in
          if o1 =? 0 then pure Undef else
          if u32 (maxint - n) <? i1 / o1 then pure (Fail IDN2_PUNYCODE_OVERFLOW) else
          let n' := u32 (n + i1 / o1) in
          if (1114111 <? n') || ((55296 <=? n') && (n' <=? 56319))
          then pure (Fail IDN2_PUNYCODE_BAD_INPUT) else
          let i2 := i1 mod o1 in
          if max_out <=? outn then pure (Fail IDN2_PUNYCODE_BIG_OUTPUT) else
          let+ o' := c_insert_at cap o i2 n' in
          c_dec_main f cap max_out rest o' n' (u32 (i2 + 1)) bias')
      end
  end.
Definition c_puny_decode (inp : list Z) (out_len cap : Z) : run (list Z) :=
  match inp with
  | [] => pure (Fail IDN2_PUNYCODE_BAD_INPUT)
  | _ :: _ =>
      let+ b := c_dec_check inp 0 0 in
      let max_out := if maxint <? out_len then maxint else out_len in
      let+ c := pure (rd inp b) in
      if c =? delimiter then
        if (b =? 0) || (b =? u64 (zlen inp - 1)) then pure (Fail IDN2_PUNYCODE_BAD_INPUT)
        else if max_out <=? b then pure (Fail IDN2_PUNYCODE_BIG_OUTPUT)
        else
          let+ o := c_dec_copy cap (firstn (Z.to_nat b) inp) [] in
          c_dec_main (length inp) cap max_out (skipn (Z.to_nat (b + 1)) inp) o initial_n 0 initial_bias
      else
        c_dec_main (length inp) cap max_out (skipn (Z.to_nat b) inp) [] initial_n 0 initial_bias
  end.

Section Step.
  Variable U : uenv.

  (** * context.c *)
  Fixpoint c_zwnj_back (label : list Z) (tmp : nat) : run unit :=
    tick (let+ cp := pure (rd label (Z.of_nat tmp)) in
    let jt := ue_join U cp in
    if joining_eqb jt UC_JOINING_TYPE_L || joining_eqb jt UC_JOINING_TYPE_D then pure (Ok tt)
    else match tmp with
         | O => pure (Fail IDN2_CONTEXTJ)
         | S tmp' => if joining_eqb jt UC_JOINING_TYPE_T then c_zwnj_back label tmp' else pure (Fail IDN2_CONTEXTJ)
         end).
  Fixpoint c_zwnj_fwd (rest : list Z) : run unit :=
    match rest with
    | [] => pure (Ok tt)
    | cp :: rest' =>
        tick (let jt := ue_join U cp in
        if joining_eqb jt UC_JOINING_TYPE_R || joining_eqb jt UC_JOINING_TYPE_D then pure (Ok tt)
        else match rest' with
             | [] => pure (Fail IDN2_CONTEXTJ)
             | _ => if joining_eqb jt UC_JOINING_TYPE_T then c_zwnj_fwd rest' else pure (Fail IDN2_CONTEXTJ)
             end)
    end.
  Definition c_contextj_rule (label : list Z) (pos : Z) : run unit :=
    let llen := zlen label in
    if llen =? 0 then pure (Ok tt)
    else
      let+ cp := pure (rd label pos) in
      let+ j := c_contextj_p cp in
      if negb j then pure (Ok tt)
      else if cp =? 0x200C then
        let+ v := pure (virama_before U label pos) in
        if v then pure (Ok tt)
        else if (pos =? 0) || (pos =? llen - 1) then pure (Fail IDN2_CONTEXTJ)
        else
          let+ _ := c_zwnj_back label (Z.to_nat (pos - 1)) in
          c_zwnj_fwd (skipn (Z.to_nat (pos + 1)) label)
      else if cp =? 0x200D then
        let+ v := pure (virama_before U label pos) in
        if v then pure (Ok tt) else pure (Fail IDN2_CONTEXTJ)
      else pure (Fail IDN2_CONTEXTJ_NO_RULE).
  Definition c_contexto_rule (label : list Z) (pos : Z) : run unit :=
    let llen := zlen label in
    let+ cp := pure (rd label pos) in
    let+ o := c_contexto_p cp in
    if negb o then pure (Ok tt)
    else if cp =? 0xB7 then
      if llen <? 3 then pure (Fail IDN2_CONTEXTO)
      else if (pos =? 0) || (pos =? llen - 1) then pure (Fail IDN2_CONTEXTO)
      else
        let+ b := pure (rd label (pos - 1)) in
        let+ a := pure (rd label (pos + 1)) in
        pure (if (b =? 0x6C) && (a =? 0x6C) then Ok tt else Fail IDN2_CONTEXTO)
    else if cp =? 0x375 then
      if pos =? llen - 1 then pure (Fail IDN2_CONTEXTO)
      else
        let+ a := pure (rd label (pos + 1)) in
        pure (if String.eqb (script_name U a) "Greek"%string then Ok tt else Fail IDN2_CONTEXTO)
    else if (cp =? 0x5F3) || (cp =? 0x5F4) then
      if pos =? 0 then pure (Fail IDN2_CONTEXTO)
      else
        let+ b := pure (rd label (pos - 1)) in
        pure (if String.eqb (script_name U b) "Hebrew"%string then Ok tt else Fail IDN2_CONTEXTO)
    else if is_arabic_indic cp then
      let+ x := c_existsb is_ext_arabic_indic label in
      pure (if x then Fail IDN2_CONTEXTO else Ok tt)
    else if is_ext_arabic_indic cp then
      let+ x := c_existsb is_arabic_indic label in
      pure (if x then Fail IDN2_CONTEXTO else Ok tt)
    else if cp =? 0x30FB then
      let+ x := c_existsb (fun c => String.eqb (script_name U c) "Hiragana"%string
                                    || String.eqb (script_name U c) "Katakana"%string
                                    || String.eqb (script_name U c) "Han"%string) label in
      pure (if x then Ok tt else Fail IDN2_CONTEXTO)
    else pure (Fail IDN2_CONTEXTO_NO_RULE).

  (** * bidi.c *)
  Fixpoint c_is_bidi (label : list Z) : run bool :=
    match label with
    | [] => pure (Ok false)
    | c :: r =>
        tick (let bc := ue_bidi U c in
        if bidi_eqb bc UC_BIDI_R || bidi_eqb bc UC_BIDI_AL || bidi_eqb bc UC_BIDI_AN then pure (Ok true)
        else c_is_bidi r)
    end.
  Fixpoint c_bidi_ltr (label : list Z) (endok : bool) : run unit :=
    match label with
    | [] => pure (if endok then Ok tt else Fail IDN2_BIDI)
    | c :: r =>
        tick (let bc := ue_bidi U c in
        if bidi_eqb bc UC_BIDI_L || bidi_eqb bc UC_BIDI_EN || bidi_eqb bc UC_BIDI_NSM then c_bidi_ltr r true
        else if negb (bidi_eqb bc UC_BIDI_ES) && negb (bidi_eqb bc UC_BIDI_CS) && negb (bidi_eqb bc UC_BIDI_ET)
                && negb (bidi_eqb bc UC_BIDI_ON) && negb (bidi_eqb bc UC_BIDI_BN)
        then pure (Fail IDN2_BIDI)
        else c_bidi_ltr r false)
    end.
  Fixpoint c_bidi_rtl (label : list Z) (endok : bool) : run unit :=
    match label with
    | [] => pure (if endok then Ok tt else Fail IDN2_BIDI)
    | c :: r =>
        tick (let bc := ue_bidi U c in
        if bidi_eqb bc UC_BIDI_R || bidi_eqb bc UC_BIDI_AL || bidi_eqb bc UC_BIDI_EN
           || bidi_eqb bc UC_BIDI_AN || bidi_eqb bc UC_BIDI_NSM then c_bidi_rtl r true
        else if negb (bidi_eqb bc UC_BIDI_ES) && negb (bidi_eqb bc UC_BIDI_CS) && negb (bidi_eqb bc UC_BIDI_ET)
                && negb (bidi_eqb bc UC_BIDI_ON) && negb (bidi_eqb bc UC_BIDI_BN)
        then pure (Fail IDN2_BIDI)
        else c_bidi_rtl r false)
    end.
  Definition c_bidi (label : list Z) : run unit :=
    let+ b := c_is_bidi label in
    if negb b then pure (Ok tt)
    else match label with
         | [] => pure Undef
         | c :: r =>
             match ue_bidi U c with
             | UC_BIDI_L => c_bidi_ltr r true
             | UC_BIDI_R | UC_BIDI_AL => c_bidi_rtl r true
             | _ => pure (Fail IDN2_BIDI)
             end
         end.

  (** * idna.c *)
  Fixpoint c_isNFC_loop (label : list Z) (skip : bool) (last result : Z) : run Z :=
    match label with
    | [] => pure (Ok result)
    | ch :: r =>
        if skip then c_isNFC_loop r false last result
        else
          tick (let cc := ue_ccc U ch in
          if (cc <? last) && negb (cc =? 0) then pure (Ok 0)
          else
            let+ m := c_get_nfcqc_map ch in
            match m with
            | Some q =>
                if negb (nq_check q =? 0) then pure (Ok 0)
                else c_isNFC_loop r (0x10000 <=? ch) cc (-1)
            | None => c_isNFC_loop r (0x10000 <=? ch) cc result
            end)
    end.
  Definition c_u8_to_u32_nfc (src : list Z) (nfc : bool) : run (list Z) :=
    let+ p := c_u8_to_u32 src in
    if nfc then
      let+ k := c_isNFC_loop p false 0 1 in
      pure (if k =? 0 then conv (ue_nfc U p) IDN2_NFC else Ok p)
    else pure (Ok p).
  Definition c_ascii_p (src : list Z) : run bool := c_forallb (fun b => b <? 128) src.
  Fixpoint c_each (f : Z -> run unit) (l : list Z) : run unit :=
    match l with
    | [] => pure (Ok tt)
    | c :: r => tick (let+ _ := f c in c_each f r)
    end.
  Fixpoint c_each_pos (f : Z -> run unit) (n : nat) (i : Z) : run unit :=
    match n with
    | O => pure (Ok tt)
    | S n' => tick (let+ _ := f i in c_each_pos f n' (i + 1))
    end.
  Definition c_test_nfc (label : list Z) : run unit :=
    let+ p := pure (conv (ue_nfc U label) IDN2_NFC) in
    let+ e := c_list_eqb label p in
    pure (if e then Ok tt else Fail IDN2_NOT_NFC).
  Definition c_test_disallowed1 (what c : Z) : run unit :=
    let+ d := c_disallowed_p c in
    if d then
      if has what (Z.lor TEST_TRANSITIONAL TEST_NONTRANSITIONAL) && has what TEST_ALLOW_STD3_DISALLOWED then
        let+ m := c_get_idna_map c in
        let+ x := pure (std3_exempt (fst m)) in
        pure (if x then Ok tt else Fail IDN2_DISALLOWED)
      else pure (Fail IDN2_DISALLOWED)
    else pure (Ok tt).
  Definition c_test_contextj1 (c : Z) : run unit :=
    let+ j := c_contextj_p c in pure (if j then Fail IDN2_CONTEXTJ else Ok tt).
  Definition c_test_contexto1 (c : Z) : run unit :=
    let+ o := c_contexto_p c in pure (if o then Fail IDN2_CONTEXTO else Ok tt).
  Definition c_test_contexto_with1 (c : Z) : run unit :=
    let+ o := c_contexto_p c in
    pure (if o && negb (contexto_with_rule c) then Fail IDN2_CONTEXTO_NO_RULE else Ok tt).
  Definition c_test_unassigned1 (c : Z) : run unit :=
    let+ u := c_unassigned_p c in pure (if u then Fail IDN2_UNASSIGNED else Ok tt).
  Definition c_test_dot1 (c : Z) : run unit := pure (test_dot1 c).
  Definition c_test_status1 (what c : Z) : run unit :=
    let transitional := has what TEST_TRANSITIONAL in
    let+ m := c_get_idna_map c in
    let+ v := pure (map_is (fst m) FLG_VALID) in
    let+ ok := pure (if v then Ok true
                     else if negb transitional then map_is (fst m) FLG_DEVIATION
                     else Ok false) in
    if ok then pure (Ok tt)
    else
      let+ x := pure (if has what TEST_ALLOW_STD3_DISALLOWED then std3_exempt (fst m) else Ok false) in
      if x then pure (Ok tt)
      else pure (Fail (if transitional then IDN2_INVALID_TRANSITIONAL else IDN2_INVALID_NONTRANSITIONAL)).
  Definition c_when (b : bool) (t : run unit) : run unit := if b then t else pure (Ok tt).
  Definition c_label_test (what : Z) (label : list Z) : run unit :=
    let+ _ := c_when (has what TEST_NFC) (c_test_nfc label) in
    let+ _ := c_when (has what TEST_2HYPHEN) (pure (test_2hyphen label)) in
    let+ _ := c_when (has what TEST_HYPHEN_STARTEND) (pure (test_hyphen_startend label)) in
    let+ _ := c_when (has what TEST_LEADING_COMBINING) (pure (test_leading_combining U label)) in
    let+ _ := c_when (has what TEST_DISALLOWED) (c_each (c_test_disallowed1 what) label) in
    let+ _ := c_when (has what TEST_CONTEXTJ) (c_each c_test_contextj1 label) in
    let+ _ := c_when (has what TEST_CONTEXTJ_RULE) (c_each_pos (c_contextj_rule label) (length label) 0) in
    let+ _ := c_when (has what TEST_CONTEXTO) (c_each c_test_contexto1 label) in
    let+ _ := c_when (has what TEST_CONTEXTO_WITH_RULE) (c_each c_test_contexto_with1 label) in
    let+ _ := c_when (has what TEST_CONTEXTO_RULE) (c_each_pos (c_contexto_rule label) (length label) 0) in
    let+ _ := c_when (has what TEST_UNASSIGNED) (c_each c_test_unassigned1 label) in
    let+ _ := c_when (has what TEST_BIDI) (c_bidi label) in
    c_when (has what (Z.lor TEST_TRANSITIONAL TEST_NONTRANSITIONAL))
      (let+ _ := c_each c_test_dot1 label in c_each (c_test_status1 what) label).

  (** * lookup.c *)
  Definition c_label_tail (src : list Z) (src_org : option (list Z)) (dstlen flags : Z) : run (list Z) :=
    let+ p := c_u8_to_u32_nfc src (has flags IDN2_NFC_INPUT) in
    let+ _ := c_when (negb (has flags IDN2_TRANSITIONAL)) (c_label_test (label_tests flags) p) in
    if dstlen <? 4 then pure Undef
    else
      let+ enc := c_puny_encode p (dstlen - 4) (dstlen - 4) in
      let dst := ace_prefix ++ enc in
      match src_org with
      | Some org =>
          let+ e := c_casecmp_eq org dst in
          pure (if e then Ok dst else Fail IDN2_ALABEL_ROUNDTRIP_FAILED)
      | None =>
          if negb (has flags IDN2_NO_ALABEL_ROUNDTRIP) then
            let back := c_puny_decode enc LABEL_MAX LABEL_MAX in
            spend (fst back)
              match snd back with
              | Ok l32 =>
                  let+ e := c_list_eqb p l32 in
                  pure (if e then Ok dst else Fail IDN2_ALABEL_ROUNDTRIP_FAILED)
              | Fail _ => pure (Fail IDN2_ALABEL_ROUNDTRIP_FAILED)
              | Undef => pure Undef
              | NoFuel => pure NoFuel
              end
          else pure (Ok dst)
      end.
  Definition c_label (src : list Z) (dstlen flags : Z) : run (list Z) :=
    let+ a := c_ascii_p src in
    if a then
      if negb (has flags IDN2_NO_ALABEL_ROUNDTRIP) && has_ace_prefix src then
        let+ l32 := c_puny_decode (skipn 4 src) LABEL_MAX LABEL_MAX in
        let+ src' := c_u32_to_u8 l32 in
        c_label_tail src' (Some src) dstlen flags
      else if LABEL_MAX <? zlen src then pure (Fail IDN2_TOO_BIG_LABEL)
      else if dstlen <? zlen src then pure (Fail IDN2_TOO_BIG_DOMAIN)
      else spend (zlen src) (pure (Ok src))   (* memcpy *)
    else c_label_tail src None dstlen flags.

  (** The chains of tests of the status flags have no loops but the table
      lookup and the copy of the mapping. *)
  Definition c_tr46_len1 (flags c : Z) : run Z :=
    let+ p := c_get_idna_map c in
    pure (let m := fst p in
      let* d := map_is m FLG_DISALLOWED in
      if d then if negb (c =? 0) then Fail IDN2_DISALLOWED else Ok 1
      else
        let* mp := map_is m FLG_MAPPED in
        if mp then Ok (m_n m) else
        let* v := map_is m FLG_VALID in
        if v then Ok 1 else
        let* i := map_is m FLG_IGNORED in
        if i then Ok 0 else
        let* dv := map_is m FLG_DEVIATION in
        if dv then Ok (if has flags IDN2_TRANSITIONAL then m_n m else 1) else
        if negb (has flags IDN2_USE_STD3_ASCII_RULES) then
          let* sv := map_is m FLG_DISALLOWED_STD3_VALID in
          if sv then Ok 1 else
          let* sm := map_is m FLG_DISALLOWED_STD3_MAPPED in
          if sm then Ok (m_n m) else Ok 0
        else Ok 0).
  Fixpoint c_tr46_len (flags : Z) (l : list Z) (len2 : Z) : run Z :=
    match l with
    | [] => pure (Ok len2)
    | c :: r => tick (let+ n := c_tr46_len1 flags c in c_tr46_len flags r (len2 + n))
    end.
  Definition c_tr46_map1 (flags c : Z) : run (list Z) :=
    let+ p := c_get_idna_map c in
    let m := fst p in
    let+ d := pure (map_is m FLG_DISALLOWED) in
    if d then pure (Ok [c])
    else
      let+ mp := pure (map_is m FLG_MAPPED) in
      if mp then c_get_map_data m else
      let+ v := pure (map_is m FLG_VALID) in
      if v then pure (Ok [c]) else
      let+ i := pure (map_is m FLG_IGNORED) in
      if i then pure (Ok []) else
      let+ dv := pure (map_is m FLG_DEVIATION) in
      if dv then (if has flags IDN2_TRANSITIONAL then c_get_map_data m else pure (Ok [c])) else
      if negb (has flags IDN2_USE_STD3_ASCII_RULES) then
        let+ sv := pure (map_is m FLG_DISALLOWED_STD3_VALID) in
        if sv then pure (Ok [c]) else
        let+ sm := pure (map_is m FLG_DISALLOWED_STD3_MAPPED) in
        if sm then c_get_map_data m else pure (Ok [])
      else pure (Ok []).
  Fixpoint c_tr46_map (cap flags : Z) (l tmp : list Z) : run (list Z) :=
    match l with
    | [] => pure (Ok tmp)
    | c :: r =>
        tick (let+ x := c_tr46_map1 flags c in
        if cap <? zlen tmp + zlen x then pure Undef
        else c_tr46_map cap flags r (tmp ++ x))
    end.
  Definition c_inner (r : run unit) : run (out unit) := (fst r, Ok (snd r)).
  Definition c_tr46_check1 (flags : Z) (s : list Z) : run (out unit) :=
    let std3 := if has flags IDN2_USE_STD3_ASCII_RULES then 0 else TEST_ALLOW_STD3_DISALLOWED in
    if has_ace_prefix s then
      let+ ace := c_u32_to_u8 (skipn 4 s) in
      let+ name := c_puny_decode ace LABEL_MAX LABEL_MAX in
      c_inner (c_label_test (Z.lor TR46_NONTRANSITIONAL_CHECK std3) name)
    else
      c_inner (c_label_test
            (Z.lor (if has flags IDN2_TRANSITIONAL then TR46_TRANSITIONAL_CHECK else TR46_NONTRANSITIONAL_CHECK) std3) s).
  (** The scan for the dot: one per element and one for the dot. *)
  Fixpoint c_tr46_checks (flags : Z) (labels : list (list Z)) (err : Z) : run Z :=
    match labels with
    | [] => pure (Ok err)
    | s :: rest =>
        match s, rest with
        | [], [] => pure (Ok err)
        | _, _ =>
            spend (zlen s + 1)
            (let+ t := c_tr46_check1 flags s in
            match t with
            | Ok _ => c_tr46_checks flags rest err
            | Fail rc => c_tr46_checks flags rest rc
            | Undef => pure Undef
            | NoFuel => pure NoFuel
            end)
        end
    end.
  Definition c_tr46 (src : list Z) (flags : Z) : run (list Z) :=
    spend (zlen src + 1)   (* strlen *)
    (let+ d := c_u8_to_u32 (src ++ [0]) in
    let d := removelast d in
    let+ len2 := c_tr46_len flags d 0 in
    if DOMAIN_MAX <=? len2 then pure (Fail IDN2_TOO_BIG_DOMAIN)
    else
      let+ tmp := c_tr46_map (len2 + 1) flags d [] in
      if len2 + 1 <? zlen tmp + 1 then pure Undef
      else
        let+ n := pure (conv (ue_nfc U (tmp ++ [0])) IDN2_ENCODING_ERROR) in
        match until0 n with
        | None => pure Undef
        | Some name =>
            let+ err := c_tr46_checks flags (split_dots name) IDN2_OK in
            if negb (err =? IDN2_OK) then pure (Fail err)
            else
              let+ o := c_u32_to_u8 n in
              pure match until0 o with None => Undef | Some s => Ok s end
        end).
  Fixpoint c_lookup_labels (flags : Z) (labels : list (list Z)) (acc : list Z) : run (list Z) :=
    match labels with
    | [] => pure (Ok acc)
    | l :: rest =>
        let last := match rest with [] => true | _ => false end in
        spend (zlen l + 1)
        (let+ tmp := c_label l LABEL_MAX flags in
        if DOMAIN_MAX - (if (zlen tmp =? 0) && last then 1 else 2) <? zlen acc + zlen tmp
        then pure (Fail IDN2_TOO_BIG_DOMAIN)
        else if DOMAIN_MAX + 1 <? zlen acc + zlen tmp then pure Undef
        else
          spend (zlen tmp)   (* memcpy *)
          (let acc := acc ++ tmp in
          if last then
            if DOMAIN_MAX <? zlen acc then pure Undef
            else pure (Ok acc)
          else if DOMAIN_MAX <? zlen acc + 1 then pure (Fail IDN2_TOO_BIG_DOMAIN)
          else
            let acc := acc ++ [46] in
            if DOMAIN_MAX <? zlen acc then pure Undef
            else c_lookup_labels flags rest acc))
    end.
  Definition c_lookup_u8 (src : list Z) (flags : Z) : run (list Z) :=
    let+ flags := pure (set_default_flags flags) in
    let+ src := (if negb (has flags IDN2_NO_TR46) then c_tr46 src flags else pure (Ok src)) in
    c_lookup_labels flags (split_dots src) [].

  (** * register.c *)
  Definition c_reg_ulabel (u : list Z) (flags : Z) : run (list Z) :=
    spend (zlen u + 1)   (* strlen *)
    (let+ a := c_ascii_p u in
    if a then
      if LABEL_MAX <? zlen u then pure (Fail IDN2_TOO_BIG_LABEL) else spend (zlen u) (pure (Ok u))   (* strdup *)
    else
      let+ l := c_u8_to_u32_nfc u (has flags IDN2_NFC_INPUT) in
      let+ _ := c_label_test REGISTER_TESTS l in
      let+ e := c_puny_encode l (LABEL_MAX - 4) (LABEL_MAX - 3) in
      spend (zlen e + 4)   (* strdup *)
        (pure (if LABEL_MAX - 3 <=? zlen e then Undef else Ok (upto0 (ace_prefix ++ e))))).
  Definition c_reg_alabel (u : option (list Z)) (a : list Z) : run (list Z) :=
    spend (zlen a + 1)   (* strlen *)
    (if LABEL_MAX <? zlen a then pure (Fail IDN2_TOO_BIG_LABEL)
    else if zlen a <=? 4 then pure (Fail IDN2_INVALID_ALABEL)
    else if negb (list_eqb (firstn 4 a) ace_prefix) then pure (Fail IDN2_INVALID_ALABEL)
    else
      let+ c := c_ascii_p a in
      if negb c then pure (Fail IDN2_INVALID_ALABEL)
      else
      let+ l := c_puny_decode (skipn 4 a) (LABEL_MAX * 4) (DOMAIN_MAX * 4) in
      let+ b := c_u32_to_u8 l in
      if DOMAIN_MAX + 1 <=? zlen b then pure Undef
      else
        let u8 := upto0 b in
        let+ _ := match u with
                  | Some s => let+ e := c_list_eqb s u8 in pure (if e then Ok tt else Fail IDN2_UALABEL_MISMATCH)
                  | None => pure (Ok tt)
                  end in
        let+ tmp := c_reg_ulabel u8 0 in
        let+ e := c_list_eqb a tmp in
        pure (if e then Ok a else Fail IDN2_UALABEL_MISMATCH)).
  Definition c_deliver (c : cell) (r : run (list Z)) : run (Z * cell) := (fst r, deliver c (snd r)).
  Definition c_register_u8 (ulabel alabel : Api.ptr) (insertname : cell) (flags : Z) : run (Z * cell) :=
    match alabel, ulabel with
    | None, None => pure (Ok (IDN2_OK, store insertname None))
    | Some a, _ => c_deliver insertname (c_reg_alabel ulabel a)
    | None, Some u => c_deliver insertname (c_reg_ulabel u flags)
    end.
End Step.

(** * decode.c *)
Definition c_unicode_label (s : list Z) : run (list Z) :=
  if ace_anycase s then c_puny_decode (skipn 4 s) LABEL_MAX LABEL_MAX
  else
    let+ l := c_u8_to_u32 s in
    pure (if LABEL_MAX <? zlen l then Fail IDN2_TOO_BIG_LABEL else Ok l).
Fixpoint c_unicode_labels (labels : list (list Z)) (acc : list Z) : run (list Z) :=
  match labels with
  | [] => pure (Ok acc)
  | s :: rest =>
      match s, rest with
      | [], [] => pure (Ok acc)
      | _, _ =>
          let dot := match rest with [] => 0 | _ => 1 end in
          spend (zlen s + 1)
          (let+ l := c_unicode_label s in
          if DOMAIN_MAX <? zlen acc + zlen l + dot then pure (Fail IDN2_TOO_BIG_DOMAIN)
          else if DOMAIN_MAX + 1 <? zlen acc + zlen l then pure Undef
          else
            spend (zlen l)   (* u32_cpy *)
            match rest with
            | [] => pure (Ok (acc ++ l))
            | _ =>
                let+ acc' := pure (put (DOMAIN_MAX + 1) (acc ++ l) 46) in
                c_unicode_labels rest acc'
            end)
      end
  end.
Definition c_unicode (s : list Z) : run (list Z) :=
  let+ o := c_unicode_labels (split_dots s) [] in
  spend (zlen o + 1) (pure (if DOMAIN_MAX <? zlen o then Undef else Ok o)).
Definition c_to_unicode_8z4z (input : Api.ptr) (output : cell) (flags : Z) : run (Z * cell) :=
  match input with
  | None => pure (Ok (IDN2_OK, store output None))
  | Some s => c_deliver output (c_unicode s)
  end.
