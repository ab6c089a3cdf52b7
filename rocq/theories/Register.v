(** lib/register.c. *)
From Verif Require Import Base Uenv Puny Utf8 Idna Lookup Api.

(** register.c:165-173: the tests selected. *)
Definition REGISTER_TESTS : Z :=
  Z.lor TEST_NFC (Z.lor TEST_DISALLOWED (Z.lor TEST_UNASSIGNED (Z.lor TEST_2HYPHEN (Z.lor TEST_HYPHEN_STARTEND
    (Z.lor TEST_LEADING_COMBINING (Z.lor TEST_CONTEXTJ_RULE (Z.lor TEST_CONTEXTO_RULE TEST_BIDI))))))).

Section Register.
  Variable U : uenv.

  (** register.c:137-205, U-label only.  tmp has 64 bytes, so there are 60 behind
      the prefix, 59 of which are offered to the encoder; strdup copies up to
      the first NUL. *)
  Definition reg_ulabel (u : list Z) (flags : Z) : out (list Z) :=
    if ascii_p u then
      if LABEL_MAX <? zlen u then Fail IDN2_TOO_BIG_LABEL else Ok u
    else
      let* l := u8_to_u32_nfc U u (has flags IDN2_NFC_INPUT) in
      let* _ := label_test U REGISTER_TESTS l in
      let* e := puny_encode l (LABEL_MAX - 4) (LABEL_MAX - 3) in
      if LABEL_MAX - 3 <=? zlen e then Undef (* tmp[4 + tmpl] *)
      else Ok (upto0 (ace_prefix ++ e)).

  (** register.c:86-136, with A-label.  u32 has 4 * 255 entries, of which
      4 * 63 are offered to the decoder; u8 has 256 bytes.  If the conversion
      does not fit, libunistring allocates and u8 stays unset. *)
  Definition reg_alabel (u : ptr) (a : list Z) : out (list Z) :=
    if LABEL_MAX <? zlen a then Fail IDN2_TOO_BIG_LABEL
    else if zlen a <=? 4 then Fail IDN2_INVALID_ALABEL
    else if negb (list_eqb (firstn 4 a) ace_prefix) then Fail IDN2_INVALID_ALABEL
    else if negb (ascii_p a) then Fail IDN2_INVALID_ALABEL
    else
      let* l := puny_decode (skipn 4 a) (LABEL_MAX * 4) (DOMAIN_MAX * 4) in
      let* b := conv (u32_to_u8 l) IDN2_ENCODING_ERROR in
      if DOMAIN_MAX + 1 <=? zlen b then Undef (* u8[u8len] *)
      else
        let u8 := upto0 b in
        let* _ := match u with
                  | Some s => if list_eqb s u8 then Ok tt else Fail IDN2_UALABEL_MISMATCH
                  | None => Ok tt
                  end in
        let* tmp := reg_ulabel u8 0 in
        if list_eqb a tmp then Ok a else Fail IDN2_UALABEL_MISMATCH.

  (** register.c:73-207 [idn2_register_u8]. *)
  Definition register_u8 (ulabel alabel : ptr) (insertname : cell) (flags : Z) : result :=
    match alabel, ulabel with
    | None, None => Ok (IDN2_OK, store insertname None)
    | Some a, _ => deliver insertname (reg_alabel ulabel a)
    | None, Some u => deliver insertname (reg_ulabel u flags)
    end.

  (** register.c:238-265 [idn2_register_ul]. *)
  Definition register_ul (L : locale) (ulabel alabel : ptr) (insertname : cell) (flags : Z) : result :=
    match ulabel with
    | None => register_u8 None alabel insertname (Z.lor flags IDN2_NFC_INPUT)
    | Some x =>
        match from_locale L x with
        | None => Ok (IDN2_ICONV_FAIL, insertname)
        | Some s => register_u8 (Some s) alabel insertname (Z.lor flags IDN2_NFC_INPUT)
        end
    end.
End Register.
