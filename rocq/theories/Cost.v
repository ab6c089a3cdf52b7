(** How long the conversions run: for each function [f] of the model the number
    of loop iterations the C code makes, as a recursive function [T_f] of the
    same arguments.  StepProofs.v proves that the counting functions [c_f] of
    Step.v count [T_f].

    One iteration of one loop counts one, whatever straight-line code it
    holds: the loops of lib/*.c, of bsearch, and of memcmp, memcpy, memmove,
    strlen and the UTF-8 conversions (one per element).  Not counted are the
    inside of u32_normalize and of the constant-time character queries of
    libunistring, of malloc, and of iconv. *)
From Coq Require Import String.
From Verif Require Import Base Uenv DataTypes Bsearch Tables Gentr46 Tr46Tables Tr46Map Utf8 Bidi Context Idna Puny Lookup Api Register.
Local Open Scope Z_scope.

(** [let* a := m in k]: [k] runs when [m] succeeds. *)
Definition after {A} (m : out A) (k : A -> Z) : Z := match m with Ok a => k a | _ => 0 end.

(** Loops with an exit. *)
Fixpoint T_existsb {A} (f : A -> bool) (l : list A) : Z :=
  match l with [] => 0 | c :: r => 1 + (if f c then 0 else T_existsb f r) end.
Definition T_forallb {A} (f : A -> bool) (l : list A) : Z := T_existsb (fun c => negb (f c)) l.
(** memcmp. *)
Fixpoint T_list_eqb (a b : list Z) : Z :=
  match a, b with
  | x :: a', y :: b' => 1 + (if x =? y then T_list_eqb a' b' else 0)
  | _, _ => 0
  end.
Fixpoint T_casecmp_eq (a b : list Z) : Z :=
  match a, b with
  | x :: a', y :: b' => 1 + (if c_tolower x =? c_tolower y then T_casecmp_eq a' b' else 0)
  | _, _ => 0
  end.
(** Scans for the terminator or the next dot. *)
Definition T_scan {A} (l : list A) : Z := zlen l + 1.

(** * Tables: the probes of bsearch (tables.c:58, tr46map.c:109-123, 156). *)
Fixpoint T_bsearch_loop (fuel : nat) (cmp : Z -> out Z) (lo hi : Z) : Z :=
  match fuel with
  | O => 0
  | S fuel =>
      if lo <? hi then
        let idx := (lo + hi) / 2 in
        1 + after (cmp idx) (fun r =>
              if r <? 0 then T_bsearch_loop fuel cmp lo idx
              else if 0 <? r then T_bsearch_loop fuel cmp (idx + 1) hi
              else 0)
      else 0
  end.
Definition T_bsearch (cmp : Z -> out Z) (n : Z) : Z := T_bsearch_loop (S (Z.to_nat n)) cmp 0 n.
Definition T_property (cp : Z) : Z :=
  T_bsearch (fun i => let* e := elem idna_table i in Ok (compare_prop cp e)) (zlen idna_table).
Definition T_search_map (c : Z) (tbl : list Z) (size : Z) : Z :=
  T_bsearch (fun i => compare_idna_map c (Tr46Map.ptr tbl size i)) (zlen tbl / size).
Definition T_get_idna_map (c : Z) : Z :=
  if c <=? 0xff then T_search_map c (t_map8 tr46_data) 5
  else if c <=? 0xffff then T_search_map c (t_map16 tr46_data) 7
  else if c <=? 0xffffff then T_search_map c (t_map24 tr46_data) 8
  else 0.
Definition T_get_nfcqc (c : Z) : Z :=
  T_bsearch (fun i => let* q := elem (t_nfcqc tr46_data) i in Ok (compare_nfcqc c q)) (zlen (t_nfcqc tr46_data)).
(** tr46map.c:169-176: one per code point and one per byte. *)
Fixpoint T_stream_cp (s : list Z) : Z :=
  match s with
  | [] => 0
  | b :: r => 1 + (if Z.land b 0x80 =? 0 then 0 else T_stream_cp r)
  end.
Fixpoint T_stream_cps (n : nat) (s : list Z) : Z :=
  match n with
  | O => 0
  | S n' => 1 + T_stream_cp s + after (stream_cp s 0) (fun p => T_stream_cps n' (snd p))
  end.
Definition T_get_map_data (m : idnamap) : Z :=
  if zlen (t_mapdata tr46_data) <? m_off m then 0 else
  T_stream_cps (Z.to_nat (m_n m)) (skipn (Z.to_nat (m_off m)) (t_mapdata tr46_data)).

(** * puny_encode.c, puny_decode.c *)
Fixpoint T_adapt_loop (fuel : nat) (delta : Z) : Z :=
  match fuel with
  | O => 0
  | S f => if 455 <? delta then 1 + T_adapt_loop f (delta / 35) else 0
  end.
Definition T_adapt (delta numpoints : Z) (firsttime : bool) : Z :=
  let d := if firsttime then delta / 700 else Z.shiftr delta 1 in
  if numpoints =? 0 then 0 else T_adapt_loop 32 (u32 (d + d / numpoints)).
Fixpoint T_enc_varint (fuel : nat) (cap max_out : Z) (o : list Z) (bias q k : Z) : Z :=
  match fuel with
  | O => 0
  | S f =>
      1 + (if max_out <=? zlen o then 0 else
      let t := thresh k bias in
      if q <? t then 0
      else if u32 (36 - t) =? 0 then 0 else
        after (put cap o (encode_digit (t + (q - t) mod (u32 (36 - t)))))
          (fun o' => T_enc_varint f cap max_out o' bias ((q - t) / u32 (36 - t)) (u32 (k + 36))))
  end.
Fixpoint T_enc_scan (cap max_out b n : Z) (l : list Z) (st : est) : Z :=
  match l with
  | [] => 0
  | c :: l' =>
      1 + after (if c <? n then
                   let d := u32 (e_delta st + 1) in
                   if d =? 0 then Fail IDN2_PUNYCODE_OVERFLOW else Ok d
                 else Ok (e_delta st)) (fun delta =>
      if c =? n then
        T_enc_varint 64 cap max_out (e_out st) (e_bias st) delta 36 +
        after (enc_varint 64 cap max_out (e_out st) (e_bias st) delta 36) (fun o =>
        T_adapt delta (u32 (e_h st + 1)) (e_h st =? b) +
        after (adapt delta (u32 (e_h st + 1)) (e_h st =? b)) (fun bias =>
        T_enc_scan cap max_out b n l' (mkest 0 o bias (u32 (e_h st + 1)))))
      else T_enc_scan cap max_out b n l' (mkest delta (e_out st) (e_bias st) (e_h st)))
  end.
(** A round: the search for m, then the scan. *)
Fixpoint T_enc_main (fuel : nat) (cap max_out b : Z) (l : list Z) (n : Z) (st : est) : Z :=
  if e_h st <? zlen l then
    match fuel with
    | O => 0
    | S f =>
        let m := enc_next n l in
        let h1 := u32 (e_h st + 1) in
        1 + zlen l +
        (if h1 =? 0 then 0 else
         if u32 (maxint - e_delta st) / h1 <? u32 (m - n) then 0
         else
          let delta := u32 (e_delta st + u32 (u32 (m - n) * h1)) in
          T_enc_scan cap max_out b m l (mkest delta (e_out st) (e_bias st) (e_h st)) +
          after (enc_scan cap max_out b m l (mkest delta (e_out st) (e_bias st) (e_h st))) (fun st' =>
          T_enc_main f cap max_out b l (u32 (m + 1))
                   (mkest (u32 (e_delta st' + 1)) (e_out st') (e_bias st') (e_h st'))))
    end
  else 0.
Fixpoint T_enc_basic (cap max_out : Z) (l o : list Z) : Z :=
  match l with
  | [] => 0
  | c :: l' =>
      1 + (if c <? 128 then
             if u64 (max_out - zlen o) <? 2 then 0
             else after (put cap o c) (fun o' => T_enc_basic cap max_out l' o')
           else if (1114111 <? c) || ((55296 <=? c) && (c <=? 56319)) then 0
           else T_enc_basic cap max_out l' o)
  end.
Definition T_puny_encode (l : list Z) (max_out cap : Z) : Z :=
  if maxint <? zlen l then 0 else
  T_enc_basic cap max_out l [] +
  after (enc_basic cap max_out l []) (fun o =>
  let b := u32 (zlen o) in
  after (if 0 <? b then put cap o delimiter else Ok o) (fun o' =>
  T_enc_main (S (length l)) cap max_out b l initial_n (mkest 0 o' initial_bias b))).

Fixpoint T_dec_varint (inp : list Z) (bias i w k : Z) : Z :=
  match inp with
  | [] => 1
  | c :: r =>
      1 + (let digit := decode_digit c in
      if 36 <=? digit then 0 else
      if w =? 0 then 0 else
      if (maxint - i) / w <? digit then 0 else
      let i' := u32 (i + u32 (digit * w)) in
      let t := thresh k bias in
      if digit <? t then 0 else
      if u32 (36 - t) =? 0 then 0 else
      if maxint / u32 (36 - t) <? w then 0 else
      T_dec_varint r bias i' (u32 (w * u32 (36 - t))) (u32 (k + 36)))
  end.
(** puny_decode.c:234: memmove of the elements behind i. *)
Definition T_insert_at (o : list Z) (i : Z) : Z := zlen o - i.
Fixpoint T_dec_main (fuel : nat) (cap max_out : Z) (inp o : list Z) (n i bias : Z) : Z :=
  match inp with
  | [] => 0
  | _ :: _ =>
      match fuel with
      | O => 0
      | S f =>
          1 + T_dec_varint inp bias i 1 36 +
          after (dec_varint inp bias i 1 36) (fun p => let (i1, rest) := p in
          let outn := zlen o in
          let o1 := u32 (outn + 1) in
          T_adapt (u32 (i1 - i)) o1 (i =? 0) +
          after (adapt (u32 (i1 - i)) o1 (i =? 0)) (fun bias' =>
          if o1 =? 0 then 0 else
          if u32 (maxint - n) <? i1 / o1 then 0 else
          let n' := u32 (n + i1 / o1) in
          if (1114111 <? n') || ((55296 <=? n') && (n' <=? 56319)) then 0 else
          let i2 := i1 mod o1 in
          if max_out <=? outn then 0 else
          T_insert_at o i2 +
          after (insert_at cap o i2 n') (fun o' =>
          T_dec_main f cap max_out rest o' n' (u32 (i2 + 1)) bias')))
      end
  end.
Definition T_dec_check (l : list Z) : Z := T_forallb dec_basic l.
Fixpoint T_dec_copy (cap : Z) (l o : list Z) : Z :=
  match l with
  | [] => 0
  | c :: l' => 1 + after (put cap o c) (fun o' => T_dec_copy cap l' o')
  end.
Definition T_puny_decode (inp : list Z) (out_len cap : Z) : Z :=
  match inp with
  | [] => 0
  | _ :: _ =>
      T_dec_check inp +
      after (dec_check inp 0 0) (fun b =>
      let max_out := if maxint <? out_len then maxint else out_len in
      after (rd inp b) (fun c =>
      if c =? delimiter then
        if (b =? 0) || (b =? u64 (zlen inp - 1)) then 0
        else if max_out <=? b then 0
        else
          T_dec_copy cap (firstn (Z.to_nat b) inp) [] + after (dec_copy cap (firstn (Z.to_nat b) inp) []) (fun o =>
          T_dec_main (length inp) cap max_out (skipn (Z.to_nat (b + 1)) inp) o initial_n 0 initial_bias)
      else
        T_dec_main (length inp) cap max_out (skipn (Z.to_nat b) inp) [] initial_n 0 initial_bias))
  end.

(** * context.c, bidi.c, idna.c *)
Section Cost.
  Variable U : uenv.

  Fixpoint T_zwnj_back (label : list Z) (tmp : nat) : Z :=
    1 + after (rd label (Z.of_nat tmp)) (fun cp =>
    let jt := ue_join U cp in
    if joining_eqb jt UC_JOINING_TYPE_L || joining_eqb jt UC_JOINING_TYPE_D then 0
    else match tmp with
         | O => 0
         | S tmp' => if joining_eqb jt UC_JOINING_TYPE_T then T_zwnj_back label tmp' else 0
         end).
  Fixpoint T_zwnj_fwd (rest : list Z) : Z :=
    match rest with
    | [] => 0
    | cp :: rest' =>
        1 + (let jt := ue_join U cp in
        if joining_eqb jt UC_JOINING_TYPE_R || joining_eqb jt UC_JOINING_TYPE_D then 0
        else match rest' with
             | [] => 0
             | _ => if joining_eqb jt UC_JOINING_TYPE_T then T_zwnj_fwd rest' else 0
             end)
    end.
  Definition T_contextj_rule (label : list Z) (pos : Z) : Z :=
    let llen := zlen label in
    if llen =? 0 then 0
    else
      after (rd label pos) (fun cp =>
      T_property cp + after (contextj_p cp) (fun j =>
      if negb j then 0
      else if cp =? 0x200C then
        after (virama_before U label pos) (fun v =>
        if v then 0
        else if (pos =? 0) || (pos =? llen - 1) then 0
        else
          T_zwnj_back label (Z.to_nat (pos - 1)) +
          after (zwnj_back U label (Z.to_nat (pos - 1))) (fun _ =>
          T_zwnj_fwd (skipn (Z.to_nat (pos + 1)) label)))
      else 0)).
  Definition T_contexto_rule (label : list Z) (pos : Z) : Z :=
    after (rd label pos) (fun cp =>
    T_property cp + after (contexto_p cp) (fun o =>
    if negb o then 0
    else if (cp =? 0xB7) || (cp =? 0x375) || (cp =? 0x5F3) || (cp =? 0x5F4) then 0
    else if is_arabic_indic cp then T_existsb is_ext_arabic_indic label
    else if is_ext_arabic_indic cp then T_existsb is_arabic_indic label
    else if cp =? 0x30FB then
      T_existsb (fun c => String.eqb (script_name U c) "Hiragana"%string || String.eqb (script_name U c) "Katakana"%string
                          || String.eqb (script_name U c) "Han"%string) label
    else 0)).

  Definition is_rtl (c : Z) : bool :=
    let bc := ue_bidi U c in bidi_eqb bc UC_BIDI_R || bidi_eqb bc UC_BIDI_AL || bidi_eqb bc UC_BIDI_AN.
  (** bidi.c:69-89, 95-117: the loops stop at a forbidden class. *)
  Definition stops (allowed : list bidi_class) (c : Z) : bool := negb (existsb (bidi_eqb (ue_bidi U c)) allowed).
  Definition ltr_classes : list bidi_class :=
    [UC_BIDI_L; UC_BIDI_EN; UC_BIDI_NSM; UC_BIDI_ES; UC_BIDI_CS; UC_BIDI_ET; UC_BIDI_ON; UC_BIDI_BN].
  Definition rtl_classes : list bidi_class :=
    [UC_BIDI_R; UC_BIDI_AL; UC_BIDI_EN; UC_BIDI_AN; UC_BIDI_NSM; UC_BIDI_ES; UC_BIDI_CS; UC_BIDI_ET; UC_BIDI_ON; UC_BIDI_BN].
  Definition T_bidi (label : list Z) : Z :=
    T_existsb is_rtl label +
    (if negb (is_bidi U label) then 0
     else match label with
          | [] => 0
          | c :: r =>
              match ue_bidi U c with
              | UC_BIDI_L => T_existsb (stops ltr_classes) r
              | UC_BIDI_R | UC_BIDI_AL => T_existsb (stops rtl_classes) r
              | _ => 0
              end
          end).

  Fixpoint T_isNFC_loop (label : list Z) (skip : bool) (last : Z) : Z :=
    match label with
    | [] => 0
    | ch :: r =>
        if skip then T_isNFC_loop r false last
        else
          1 + (let cc := ue_ccc U ch in
          if (cc <? last) && negb (cc =? 0) then 0
          else
            T_get_nfcqc ch +
            after (get_nfcqc_map ch) (fun m =>
            match m with
            | Some q => if negb (nq_check q =? 0) then 0 else T_isNFC_loop r (0x10000 <=? ch) cc
            | None => T_isNFC_loop r (0x10000 <=? ch) cc
            end))
    end.
  Definition T_u8_to_u32_nfc (src : list Z) (nfc : bool) : Z :=
    zlen src +
    after (conv (u8_to_u32 src) IDN2_ENCODING_ERROR) (fun p => if nfc then T_isNFC_loop p false 0 else 0).
  Definition T_ascii_p (src : list Z) : Z := T_forallb (fun b => b <? 128) src.

  Fixpoint T_each (f : Z -> out unit) (T : Z -> Z) (l : list Z) : Z :=
    match l with
    | [] => 0
    | c :: r => 1 + T c + after (f c) (fun _ => T_each f T r)
    end.
  Fixpoint T_each_pos (f : Z -> out unit) (T : Z -> Z) (n : nat) (i : Z) : Z :=
    match n with
    | O => 0
    | S n' => 1 + T i + after (f i) (fun _ => T_each_pos f T n' (i + 1))
    end.
  Definition T_disallowed1 (what c : Z) : Z :=
    T_property c + after (disallowed_p c) (fun d =>
    if d && (has what (Z.lor TEST_TRANSITIONAL TEST_NONTRANSITIONAL) && has what TEST_ALLOW_STD3_DISALLOWED)
    then T_get_idna_map c else 0).
  Definition T_when (b : bool) (T : Z) : Z := if b then T else 0.
  (** idna.c:135-296. *)
  Definition T_label_test (what : Z) (label : list Z) : Z :=
    T_when (has what TEST_NFC) (after (conv (ue_nfc U label) IDN2_NFC) (fun p => T_list_eqb label p)) +
    after (when (has what TEST_NFC) (test_nfc U label)) (fun _ =>
    after (when (has what TEST_2HYPHEN) (test_2hyphen label)) (fun _ =>
    after (when (has what TEST_HYPHEN_STARTEND) (test_hyphen_startend label)) (fun _ =>
    after (when (has what TEST_LEADING_COMBINING) (test_leading_combining U label)) (fun _ =>
    T_when (has what TEST_DISALLOWED) (T_each (test_disallowed1 what) (T_disallowed1 what) label) +
    after (when (has what TEST_DISALLOWED) (each (test_disallowed1 what) label)) (fun _ =>
    T_when (has what TEST_CONTEXTJ) (T_each test_contextj1 T_property label) +
    after (when (has what TEST_CONTEXTJ) (each test_contextj1 label)) (fun _ =>
    T_when (has what TEST_CONTEXTJ_RULE) (T_each_pos (contextj_rule U label) (T_contextj_rule label) (length label) 0) +
    after (when (has what TEST_CONTEXTJ_RULE) (each_pos (contextj_rule U label) (length label) 0)) (fun _ =>
    T_when (has what TEST_CONTEXTO) (T_each test_contexto1 T_property label) +
    after (when (has what TEST_CONTEXTO) (each test_contexto1 label)) (fun _ =>
    T_when (has what TEST_CONTEXTO_WITH_RULE) (T_each test_contexto_with1 T_property label) +
    after (when (has what TEST_CONTEXTO_WITH_RULE) (each test_contexto_with1 label)) (fun _ =>
    T_when (has what TEST_CONTEXTO_RULE) (T_each_pos (contexto_rule U label) (T_contexto_rule label) (length label) 0) +
    after (when (has what TEST_CONTEXTO_RULE) (each_pos (contexto_rule U label) (length label) 0)) (fun _ =>
    T_when (has what TEST_UNASSIGNED) (T_each test_unassigned1 T_property label) +
    after (when (has what TEST_UNASSIGNED) (each test_unassigned1 label)) (fun _ =>
    T_when (has what TEST_BIDI) (T_bidi label) +
    after (when (has what TEST_BIDI) (bidi U label)) (fun _ =>
    T_when (has what (Z.lor TEST_TRANSITIONAL TEST_NONTRANSITIONAL))
      (T_each test_dot1 (fun _ => 0) label +
       after (each test_dot1 label) (fun _ => T_each (test_status1 what) T_get_idna_map label)))))))))))))).

  (** * lookup.c *)
  Definition T_label_tail (src : list Z) (src_org : option (list Z)) (dstlen flags : Z) : Z :=
    T_u8_to_u32_nfc src (has flags IDN2_NFC_INPUT) +
    after (u8_to_u32_nfc U src (has flags IDN2_NFC_INPUT)) (fun p =>
    T_when (negb (has flags IDN2_TRANSITIONAL)) (T_label_test (label_tests flags) p) +
    after (when (negb (has flags IDN2_TRANSITIONAL)) (label_test U (label_tests flags) p)) (fun _ =>
    if dstlen <? 4 then 0
    else
      T_puny_encode p (dstlen - 4) (dstlen - 4) +
      after (puny_encode p (dstlen - 4) (dstlen - 4)) (fun enc =>
      match src_org with
      | Some org => T_casecmp_eq org (ace_prefix ++ enc)
      | None =>
          if negb (has flags IDN2_NO_ALABEL_ROUNDTRIP) then
            T_puny_decode enc LABEL_MAX LABEL_MAX +
            after (puny_decode enc LABEL_MAX LABEL_MAX) (fun l32 => T_list_eqb p l32)
          else 0
      end))).
  Definition T_label (src : list Z) (dstlen flags : Z) : Z :=
    T_ascii_p src +
    (if ascii_p src then
       if negb (has flags IDN2_NO_ALABEL_ROUNDTRIP) && has_ace_prefix src then
         T_puny_decode (skipn 4 src) LABEL_MAX LABEL_MAX +
         after (puny_decode (skipn 4 src) LABEL_MAX LABEL_MAX) (fun l32 =>
         zlen l32 +
         after (conv (u32_to_u8 l32) IDN2_ENCODING_ERROR) (fun src' =>
         T_label_tail src' (Some src) dstlen flags))
       else if LABEL_MAX <? zlen src then 0
       else if dstlen <? zlen src then 0
       else zlen src
     else T_label_tail src None dstlen flags).

  Fixpoint T_tr46_len (flags : Z) (l : list Z) : Z :=
    match l with
    | [] => 0
    | c :: r => 1 + T_get_idna_map c + after (tr46_len1 flags c) (fun _ => T_tr46_len flags r)
    end.
  (** Which code points are replaced by their mapping (lookup.c:357-386). *)
  Definition copies (flags c : Z) (m : idnamap) : bool :=
    let is f := match map_is m f with Ok b => b | _ => false end in
    negb (is FLG_DISALLOWED) &&
    (is FLG_MAPPED ||
     (negb (is FLG_VALID) && negb (is FLG_IGNORED) &&
      if is FLG_DEVIATION then has flags IDN2_TRANSITIONAL
      else negb (has flags IDN2_USE_STD3_ASCII_RULES) && negb (is FLG_DISALLOWED_STD3_VALID) && is FLG_DISALLOWED_STD3_MAPPED)).
  Definition T_tr46_map1 (flags c : Z) : Z :=
    T_get_idna_map c +
    after (get_idna_map c) (fun p => if copies flags c (fst p) then T_get_map_data (fst p) else 0).
  Fixpoint T_tr46_map (cap flags : Z) (l tmp : list Z) : Z :=
    match l with
    | [] => 0
    | c :: r =>
        1 + T_tr46_map1 flags c +
        after (tr46_map1 flags c) (fun x =>
        if cap <? zlen tmp + zlen x then 0 else T_tr46_map cap flags r (tmp ++ x))
    end.
  Definition T_tr46_check1 (flags : Z) (s : list Z) : Z :=
    let std3 := if has flags IDN2_USE_STD3_ASCII_RULES then 0 else TEST_ALLOW_STD3_DISALLOWED in
    if has_ace_prefix s then
      zlen (skipn 4 s) +
      after (conv (u32_to_u8 (skipn 4 s)) IDN2_ENCODING_ERROR) (fun ace =>
      T_puny_decode ace LABEL_MAX LABEL_MAX +
      after (puny_decode ace LABEL_MAX LABEL_MAX) (fun name =>
      T_label_test (Z.lor TR46_NONTRANSITIONAL_CHECK std3) name))
    else
      T_label_test (Z.lor (if has flags IDN2_TRANSITIONAL then TR46_TRANSITIONAL_CHECK else TR46_NONTRANSITIONAL_CHECK) std3) s.
  Fixpoint T_tr46_checks (flags : Z) (labels : list (list Z)) : Z :=
    match labels with
    | [] => 0
    | s :: rest =>
        match s, rest with
        | [], [] => 0
        | _, _ =>
            T_scan s + T_tr46_check1 flags s +
            match tr46_check1 U flags s with
            | Ok (Ok _) | Ok (Fail _) => T_tr46_checks flags rest
            | _ => 0
            end
        end
    end.
  Definition T_tr46 (src : list Z) (flags : Z) : Z :=
    T_scan src + T_scan src +   (* strlen, u8_to_u32 *)
    after (conv (u8_to_u32 (src ++ [0])) IDN2_ENCODING_ERROR) (fun d =>
    let d := removelast d in
    T_tr46_len flags d +
    after (tr46_len flags d 0) (fun len2 =>
    if DOMAIN_MAX <=? len2 then 0
    else
      T_tr46_map (len2 + 1) flags d [] +
      after (tr46_map (len2 + 1) flags d []) (fun tmp =>
      if len2 + 1 <? zlen tmp + 1 then 0
      else
        after (conv (ue_nfc U (tmp ++ [0])) IDN2_ENCODING_ERROR) (fun n =>
        match until0 n with
        | None => 0
        | Some name =>
            T_tr46_checks flags (split_dots name) +
            after (tr46_checks U flags (split_dots name) IDN2_OK) (fun err =>
            if negb (err =? IDN2_OK) then 0 else zlen n)
        end)))).
  Fixpoint T_lookup_labels (flags : Z) (labels : list (list Z)) (acc : list Z) : Z :=
    match labels with
    | [] => 0
    | l :: rest =>
        let last := match rest with [] => true | _ => false end in
        T_scan l + T_label l LABEL_MAX flags +
        after (label U l LABEL_MAX flags) (fun tmp =>
        if DOMAIN_MAX - (if (zlen tmp =? 0) && last then 1 else 2) <? zlen acc + zlen tmp then 0
        else if DOMAIN_MAX + 1 <? zlen acc + zlen tmp then 0
        else
          zlen tmp +
          (let acc := acc ++ tmp in
          if last then 0
          else if DOMAIN_MAX <? zlen acc + 1 then 0
          else
            let acc := acc ++ [46] in
            if DOMAIN_MAX <? zlen acc then 0
            else T_lookup_labels flags rest acc))
    end.
  (** lookup.c:533-620 [idn2_lookup_u8]. *)
  Definition T_lookup_u8 (src : list Z) (flags : Z) : Z :=
    after (set_default_flags flags) (fun flags =>
    (if negb (has flags IDN2_NO_TR46) then T_tr46 src flags else 0) +
    after (if negb (has flags IDN2_NO_TR46) then tr46 U src flags else Ok src) (fun src =>
    T_lookup_labels flags (split_dots src) [])).

  (** * register.c *)
  Definition T_reg_ulabel (u : list Z) (flags : Z) : Z :=
    T_scan u + T_ascii_p u +
    (if ascii_p u then if LABEL_MAX <? zlen u then 0 else zlen u
     else
      T_u8_to_u32_nfc u (has flags IDN2_NFC_INPUT) +
      after (u8_to_u32_nfc U u (has flags IDN2_NFC_INPUT)) (fun l =>
      T_label_test REGISTER_TESTS l +
      after (label_test U REGISTER_TESTS l) (fun _ =>
      T_puny_encode l (LABEL_MAX - 4) (LABEL_MAX - 3) +
      after (puny_encode l (LABEL_MAX - 4) (LABEL_MAX - 3)) (fun e => zlen e + 4)))).
  Definition T_reg_alabel (u : option (list Z)) (a : list Z) : Z :=
    T_scan a +
    (if LABEL_MAX <? zlen a then 0
    else if zlen a <=? 4 then 0
    else if negb (list_eqb (firstn 4 a) ace_prefix) then 0
    else
      T_ascii_p a +
      (if negb (ascii_p a) then 0
      else
       T_puny_decode (skipn 4 a) (LABEL_MAX * 4) (DOMAIN_MAX * 4) +
       after (puny_decode (skipn 4 a) (LABEL_MAX * 4) (DOMAIN_MAX * 4)) (fun l =>
       zlen l +
       after (conv (u32_to_u8 l) IDN2_ENCODING_ERROR) (fun b =>
       if DOMAIN_MAX + 1 <=? zlen b then 0
       else
         let u8 := upto0 b in
         match u with Some s => T_list_eqb s u8 | None => 0 end +
         after (match u with
                | Some s => if list_eqb s u8 then Ok tt else Fail IDN2_UALABEL_MISMATCH
                | None => Ok tt
                end) (fun _ =>
         T_reg_ulabel u8 0 +
         after (reg_ulabel U u8 0) (fun tmp => T_list_eqb a tmp)))))).
  Definition T_register_u8 (ulabel alabel : option (list Z)) (flags : Z) : Z :=
    match alabel, ulabel with
    | None, None => 0
    | Some a, _ => T_reg_alabel ulabel a
    | None, Some u => T_reg_ulabel u flags
    end.
End Cost.

(** * decode.c *)
Definition T_unicode_label (s : list Z) : Z :=
  if ace_anycase s then T_puny_decode (skipn 4 s) LABEL_MAX LABEL_MAX else zlen s.
Fixpoint T_unicode_labels (labels : list (list Z)) (acc : list Z) : Z :=
  match labels with
  | [] => 0
  | s :: rest =>
      match s, rest with
      | [], [] => 0
      | _, _ =>
          let dot := match rest with [] => 0 | _ => 1 end in
          T_scan s + T_unicode_label s +
          after (unicode_label s) (fun l =>
          if DOMAIN_MAX <? zlen acc + zlen l + dot then 0
          else if DOMAIN_MAX + 1 <? zlen acc + zlen l then 0
          else
            zlen l +
            match rest with
            | [] => 0
            | _ => after (put (DOMAIN_MAX + 1) (acc ++ l) 46) (fun acc' => T_unicode_labels rest acc')
            end)
      end
  end.
(** decode.c:63-159 [idn2_to_unicode_8z4z]; the result is copied at the end. *)
Definition T_to_unicode_8z4z (s : list Z) : Z :=
  T_unicode_labels (split_dots s) [] + after (unicode_labels (split_dots s) []) (fun o => T_scan o).
