(** lib/lookup.c. *)
From Verif Require Import Base Uenv DataTypes Tables Gentr46 Tr46Map Utf8 Bidi Context Idna Puny.

(** enum idn2_flags, lib/idn2.h.in:204-214. *)
Definition IDN2_NFC_INPUT := 1.
Definition IDN2_ALABEL_ROUNDTRIP := 2.
Definition IDN2_TRANSITIONAL := 4.
Definition IDN2_NONTRANSITIONAL := 8.
Definition IDN2_ALLOW_UNASSIGNED := 16.
Definition IDN2_USE_STD3_ASCII_RULES := 32.
Definition IDN2_NO_TR46 := 64.
Definition IDN2_NO_ALABEL_ROUNDTRIP := 128.

(** lookup.c:106-124 [set_default_flags]. *)
Definition set_default_flags (flags : Z) : out Z :=
  if has flags IDN2_TRANSITIONAL && has flags IDN2_NONTRANSITIONAL then Fail IDN2_INVALID_FLAGS
  else if has flags (Z.lor IDN2_TRANSITIONAL IDN2_NONTRANSITIONAL) && has flags IDN2_NO_TR46 then Fail IDN2_INVALID_FLAGS
  else if has flags IDN2_ALABEL_ROUNDTRIP && has flags IDN2_NO_ALABEL_ROUNDTRIP then Fail IDN2_INVALID_FLAGS
  else if negb (has flags (Z.lor IDN2_NO_TR46 IDN2_TRANSITIONAL)) then Ok (Z.lor flags IDN2_NONTRANSITIONAL)
  else Ok flags.

(** "xn--" as bytes. *)
Definition ace_prefix : list Z := [120; 110; 45; 45].

(** memcmp (src, "xn--", 4) == 0 with srclen >= 4 (lookup.c:141-142, 417-418). *)
Definition has_ace_prefix (s : list Z) : bool :=
  match s with
  | a :: b :: c :: d :: _ => (a =? 120) && (b =? 110) && (c =? 45) && (d =? 45)
  | _ => false
  end.

(** c_tolower, lookup.c:80-86 / gnulib. *)
Definition c_tolower (c : Z) : Z := if (65 <=? c) && (c <=? 90) then c + 32 else c.

(** srclen_org != *dstlen || c_strncasecmp (...) as "differs" (lookup.c:88-101, 224-225). *)
Fixpoint casecmp_eq (a b : list Z) : bool :=
  match a, b with
  | [], [] => true
  | x :: a', y :: b' => (c_tolower x =? c_tolower y) && casecmp_eq a' b'
  | _, _ => false
  end.

(** The test selection of label(), lookup.c:191-202. *)
Definition label_tests (flags : Z) : Z :=
  Z.lor (Z.lor (Z.lor (Z.lor (Z.lor (Z.lor (Z.lor (Z.lor (Z.lor
    TEST_NFC TEST_2HYPHEN) TEST_LEADING_COMBINING) TEST_DISALLOWED) TEST_CONTEXTJ_RULE)
    TEST_CONTEXTO_WITH_RULE) TEST_UNASSIGNED) TEST_BIDI)
    (if has flags IDN2_NONTRANSITIONAL then TEST_NONTRANSITIONAL else 0))
    (if has flags IDN2_USE_STD3_ASCII_RULES then 0 else TEST_ALLOW_STD3_DISALLOWED).

(** lookup.c:257-260. *)
Definition TR46_TRANSITIONAL_CHECK : Z :=
  Z.lor (Z.lor (Z.lor (Z.lor TEST_NFC TEST_2HYPHEN) TEST_HYPHEN_STARTEND) TEST_LEADING_COMBINING) TEST_TRANSITIONAL.
Definition TR46_NONTRANSITIONAL_CHECK : Z :=
  Z.lor (Z.lor (Z.lor (Z.lor TEST_NFC TEST_2HYPHEN) TEST_HYPHEN_STARTEND) TEST_LEADING_COMBINING) TEST_NONTRANSITIONAL.

(** A string up to its first NUL; [None] when there is none. *)
Fixpoint until0 (l : list Z) : option (list Z) :=
  match l with
  | [] => None
  | c :: r => if c =? 0 then Some [] else match until0 r with Some p => Some (c :: p) | None => None end
  end.

(** Split at '.' (0x2E); never empty. *)
Fixpoint split_dots (l : list Z) : list (list Z) :=
  match l with
  | [] => [[]]
  | c :: r =>
      if c =? 46 then [] :: split_dots r
      else match split_dots r with
           | x :: xs => (c :: x) :: xs
           | [] => [[c]]
           end
  end.

Section Lookup.
  Variable U : uenv.

  (** lookup.c:185-254: from the Unicode form [src] (UTF-8) of the label to its
      A-label.  [src_org] is the original A-label when check_roundtrip is set. *)
  Definition label_tail (src : list Z) (src_org : option (list Z)) (dstlen flags : Z) : out (list Z) :=
    let* p := u8_to_u32_nfc U src (has flags IDN2_NFC_INPUT) in
    let* _ := when (negb (has flags IDN2_TRANSITIONAL)) (label_test U (label_tests flags) p) in
    (* dst[0..3] = "xn--"; dst has room for dstlen bytes *)
    if dstlen <? 4 then Undef
    else
      let* enc := puny_encode p (dstlen - 4) (dstlen - 4) in
      let dst := ace_prefix ++ enc in
      match src_org with
      | Some org =>
          if casecmp_eq org dst then Ok dst else Fail IDN2_ALABEL_ROUNDTRIP_FAILED
      | None =>
          if negb (has flags IDN2_NO_ALABEL_ROUNDTRIP) then
            match puny_decode enc LABEL_MAX LABEL_MAX with
            | Ok l32 => if list_eqb p l32 then Ok dst else Fail IDN2_ALABEL_ROUNDTRIP_FAILED
            | Fail _ => Fail IDN2_ALABEL_ROUNDTRIP_FAILED
            | Undef => Undef
            | NoFuel => NoFuel
            end
          else Ok dst
      end.

  (** lookup.c:126-255 [label]; [dstlen] is the incoming *dstlen (and the size
      of dst), the result the bytes of dst up to the outgoing *dstlen. *)
  Definition label (src : list Z) (dstlen flags : Z) : out (list Z) :=
    if ascii_p src then
      if negb (has flags IDN2_NO_ALABEL_ROUNDTRIP) && has_ace_prefix src then
        let* l32 := puny_decode (skipn 4 src) LABEL_MAX LABEL_MAX in
        let* src' := conv (u32_to_u8 l32) IDN2_ENCODING_ERROR in
        label_tail src' (Some src) dstlen flags
      else if LABEL_MAX <? zlen src then Fail IDN2_TOO_BIG_LABEL
      else if dstlen <? zlen src then Fail IDN2_TOO_BIG_DOMAIN
      else Ok src
    else label_tail src None dstlen flags.

  (** lookup.c:284-333, one code point: how many code points it adds to len2. *)
  Definition tr46_len1 (flags c : Z) : out Z :=
    let* (m, _) := get_idna_map c in
    let* d := map_is m FLG_DISALLOWED in
    if d then if negb (c =? 0) then Fail IDN2_DISALLOWED else Ok 1
    else
      let* mp := map_is m FLG_MAPPED in
      if mp then Ok (m_n m) else
      let* v := map_is m FLG_VALID in
      if v then Ok 1 else
      let* i := map_is m FLG_IGNORED in
      if i then Ok 0 else
      let* dv := map_is m FLG_DEVIATION in
      if dv then Ok (if has flags IDN2_TRANSITIONAL then m_n m else 1) else
      if negb (has flags IDN2_USE_STD3_ASCII_RULES) then
        let* sv := map_is m FLG_DISALLOWED_STD3_VALID in
        if sv then Ok 1 else
        let* sm := map_is m FLG_DISALLOWED_STD3_MAPPED in
        if sm then Ok (m_n m) else Ok 0
      else Ok 0.
  Fixpoint tr46_len (flags : Z) (l : list Z) (len2 : Z) : out Z :=
    match l with
    | [] => Ok len2
    | c :: r => let* n := tr46_len1 flags c in tr46_len flags r (len2 + n)
    end.

  (** lookup.c:351-394, one code point: what it appends to tmp. *)
  Definition tr46_map1 (flags c : Z) : out (list Z) :=
    let* (m, _) := get_idna_map c in
    let* d := map_is m FLG_DISALLOWED in
    if d then Ok [c]
    else
      let* mp := map_is m FLG_MAPPED in
      if mp then get_map_data m else
      let* v := map_is m FLG_VALID in
      if v then Ok [c] else
      let* i := map_is m FLG_IGNORED in
      if i then Ok [] else
      let* dv := map_is m FLG_DEVIATION in
      if dv then (if has flags IDN2_TRANSITIONAL then get_map_data m else Ok [c]) else
      if negb (has flags IDN2_USE_STD3_ASCII_RULES) then
        let* sv := map_is m FLG_DISALLOWED_STD3_VALID in
        if sv then Ok [c] else
        let* sm := map_is m FLG_DISALLOWED_STD3_MAPPED in
        if sm then get_map_data m else Ok []
      else Ok [].
  (** tmp has room for [cap] code points. *)
  Fixpoint tr46_map (cap flags : Z) (l tmp : list Z) : out (list Z) :=
    match l with
    | [] => Ok tmp
    | c :: r =>
        let* x := tr46_map1 flags c in
        if cap <? zlen tmp + zlen x then Undef
        else tr46_map cap flags r (tmp ++ x)
    end.

  (** lookup.c:417-465: test one label. *)
  Definition tr46_check1 (flags : Z) (s : list Z) : out (out unit) :=
    let std3 := if has flags IDN2_USE_STD3_ASCII_RULES then 0 else TEST_ALLOW_STD3_DISALLOWED in
    if has_ace_prefix s then
      let* ace := conv (u32_to_u8 (skipn 4 s)) IDN2_ENCODING_ERROR in
      let* name := puny_decode ace LABEL_MAX LABEL_MAX in
      Ok (label_test U (Z.lor TR46_NONTRANSITIONAL_CHECK std3) name)
    else
      Ok (label_test U
            (Z.lor (if has flags IDN2_TRANSITIONAL then TR46_TRANSITIONAL_CHECK else TR46_NONTRANSITIONAL_CHECK) std3) s).

  (** lookup.c:410-469: loop over the labels.  [err] is the last test failure.
      The loop runs while *e is non-zero, so a final empty label is not
      visited. *)
  Fixpoint tr46_checks (flags : Z) (labels : list (list Z)) (err : Z) : out Z :=
    match labels with
    | [] => Ok err
    | s :: rest =>
        match s, rest with
        | [], [] => Ok err
        | _, _ =>
            let* t := tr46_check1 flags s in
            match t with
            | Ok _ => tr46_checks flags rest err
            | Fail rc => tr46_checks flags rest rc
            | Undef => Undef
            | NoFuel => NoFuel
            end
        end
    end.

  (** lookup.c:262-489 [_tr46]; [src] is the string without its NUL. *)
  Definition tr46 (src : list Z) (flags : Z) : out (list Z) :=
    let* d := conv (u8_to_u32 (src ++ [0])) IDN2_ENCODING_ERROR in
    let d := removelast d in  (* the loops run to len - 1 *)
    let* len2 := tr46_len flags d 0 in
    if DOMAIN_MAX <=? len2 then Fail IDN2_TOO_BIG_DOMAIN
    else
      let* tmp := tr46_map (len2 + 1) flags d [] in
      if len2 + 1 <? zlen tmp + 1 then Undef  (* tmp[len2] = 0 *)
      else
        let* n := conv (ue_nfc U (tmp ++ [0])) IDN2_ENCODING_ERROR in
        match until0 n with
        | None => Undef  (* the scan runs off the buffer *)
        | Some name =>
            let* err := tr46_checks flags (split_dots name) IDN2_OK in
            if negb (err =? IDN2_OK) then Fail err
            else
              let* o := conv (u32_to_u8 n) IDN2_ENCODING_ERROR in
              match until0 o with None => Undef | Some s => Ok s end
        end.

  (** lookup.c:563-604: one iteration per label.  [acc] is _lookupname so far;
      [last]: *end is NUL. *)
  Fixpoint lookup_labels (flags : Z) (labels : list (list Z)) (acc : list Z) : out (list Z) :=
    match labels with
    | [] => Ok acc
    | l :: rest =>
        let last := match rest with [] => true | _ => false end in
        let* tmp := label l LABEL_MAX flags in
        if DOMAIN_MAX - (if (zlen tmp =? 0) && last then 1 else 2) <? zlen acc + zlen tmp
        then Fail IDN2_TOO_BIG_DOMAIN
        else if DOMAIN_MAX + 1 <? zlen acc + zlen tmp then Undef  (* memcpy *)
        else
          let acc := acc ++ tmp in
          if last then
            if DOMAIN_MAX <? zlen acc then Undef  (* terminating NUL *)
            else Ok acc
          else if DOMAIN_MAX <? zlen acc + 1 then Fail IDN2_TOO_BIG_DOMAIN
          else
            let acc := acc ++ [46] in
            if DOMAIN_MAX <? zlen acc then Undef
            else lookup_labels flags rest acc
    end.

  (** lookup.c:533-620 [idn2_lookup_u8] for a non-NULL [src]. *)
  Definition lookup_u8 (src : list Z) (flags : Z) : out (list Z) :=
    let* flags := set_default_flags flags in
    let* src := (if negb (has flags IDN2_NO_TR46) then tr46 src flags else Ok src) in
    lookup_labels flags (split_dots src) [].
End Lookup.
