(** Lookup and the functions on arrays of code points with sizes of [W] bits:
    every sum and product of sizes that can be large is taken modulo 2^W, as
    size_t has it.  Elsewhere in the model sizes are unbounded.  Sizes that the
    code has compared with 63 or 255 before it adds to them (lookup.c:579-597,
    decode.c:96-137) stay below 512 and are left as they are; memory is taken to suffice. *)
From Verif Require Import Base Uenv DataTypes Tables Gentr46 Tr46Map Utf8 Bidi Context Idna Puny Lookup Api.

Section Width.
  Variable W : Z.
  Variable U : uenv.
  Definition size (x : Z) : Z := x mod 2 ^ W.
  (** How many elements of four bytes malloc (n * sizeof (uint32_t)) has room for. *)
  Definition room (n : Z) : Z := size (n * 4) / 4.

  (** lookup.c:284-333: size_t len2. *)
  Fixpoint wtr46_len (flags : Z) (l : list Z) (len2 : Z) : out Z :=
    match l with
    | [] => Ok len2
    | c :: r => let* n := tr46_len1 flags c in wtr46_len flags r (size (len2 + n))
    end.

  (** lookup.c:262-489 [_tr46]. *)
  Definition wtr46 (src : list Z) (flags : Z) : out (list Z) :=
    let* d := conv (u8_to_u32 (firstn (Z.to_nat (size (zlen src + 1))) (src ++ [0]))) IDN2_ENCODING_ERROR in
    let d := removelast d in
    let* len2 := wtr46_len flags d 0 in
    if DOMAIN_MAX <=? len2 then Fail IDN2_TOO_BIG_DOMAIN
    else
      let cap := room (size (len2 + 1)) in
      let* tmp := tr46_map cap flags d [] in
      if cap <? zlen tmp + 1 then Undef
      else
        let* n := conv (ue_nfc U (tmp ++ [0])) IDN2_ENCODING_ERROR in
        match until0 n with
        | None => Undef
        | Some name =>
            let* err := tr46_checks U flags (split_dots name) IDN2_OK in
            if negb (err =? IDN2_OK) then Fail err
            else
              let* o := conv (u32_to_u8 n) IDN2_ENCODING_ERROR in
              match until0 o with None => Undef | Some s => Ok s end
        end.

  (** lookup.c:532-621 [idn2_lookup_u8]. *)
  Definition wlookup_u8 (src : list Z) (flags : Z) : out (list Z) :=
    let* flags := set_default_flags flags in
    let* src := (if negb (has flags IDN2_NO_TR46) then wtr46 src flags else Ok src) in
    lookup_labels U flags (split_dots src) [].
  Definition widn2_lookup_u8 (src : ptr) (lookupname : cell) (flags : Z) : result :=
    match src with
    | None => Ok (IDN2_OK, store lookupname None)
    | Some s => deliver lookupname (wlookup_u8 s flags)
    end.

  (** lookup.c:804-809 and decode.c:261-266: the copy of an array with a zero
      after it. *)
  Definition terminated (l : list Z) : out (list Z) :=
    if room (size (zlen l + 1)) <? zlen l + 1 then Undef else Ok (l ++ [0]).

  (** lookup.c:788-832 [idn2_to_ascii_4i2]. *)
  Definition wto_ascii_4i2 (junk : ptr) (input : option (list Z)) (output : cell) (flags : Z) : result :=
    match input with
    | None => Ok (IDN2_OK, store output None)
    | Some l =>
        let* t := terminated l in
        match u32_to_u8 t with
        | None => Ok (IDN2_ENCODING_ERROR, output)
        | Some b =>
            let* (rc, loc) := widn2_lookup_u8 (Some (upto0 b)) (Some junk) flags in
            if rc =? IDN2_OK then Ok (rc, store output (contents loc)) else Ok (rc, output)
        end
    end.

  (** lookup.c:724-752 [idn2_to_ascii_4i]. *)
  Definition wto_ascii_4i (junk : ptr) (input : option (list Z)) (output : option (list Z)) (flags : Z)
    : out (Z * option (list Z)) :=
    match input with
    | None =>
        match output with
        | None => Ok (IDN2_OK, None)
        | Some [] => Undef
        | Some (_ :: a) => Ok (IDN2_OK, Some (0 :: a))
        end
    | Some l =>
        let* (rc, loc) := wto_ascii_4i2 junk (Some l) (Some junk) flags in
        if rc =? IDN2_OK then
          match contents loc with
          | None => Undef
          | Some r =>
              let len := zlen (upto0 r) in
              if 63 <? len then Ok (IDN2_TOO_BIG_DOMAIN, output)
              else
                match output with
                | None => Ok (rc, None)
                | Some a => let* a' := copy_to a r len in Ok (rc, Some a')
                end
          end
        else Ok (rc, output)
    end.

  (** decode.c:245-282 [idn2_to_unicode_44i]. *)
  Definition wto_unicode_44i (junk : ptr) (inp : option (list Z)) (arr : option (list Z)) (outlen : option Z) (flags : Z)
    : out (Z * option (list Z) * option Z) :=
    match inp with
    | None => Ok (IDN2_OK, arr, match outlen with Some _ => Some 0 | None => None end)
    | Some l =>
        let* t := terminated l in
        let* (rc, loc) := to_unicode_4z4z junk (Some (upto0 t)) (Some junk) flags in
        if negb (rc =? IDN2_OK) then Ok (rc, arr, outlen)
        else
          match contents loc with
          | None => Undef
          | Some r =>
              let len := zlen (upto0 r) in
              let* arr' :=
                match arr, outlen with
                | Some a, Some n => let* a' := copy_to a r (if len <? n then len else n) in Ok (Some a')
                | _, _ => Ok arr
                end in
              Ok (IDN2_OK, arr', match outlen with Some _ => Some len | None => None end)
          end
    end.
End Width.
