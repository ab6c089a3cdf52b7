(** The public conversion functions of lib/lookup.c and lib/decode.c, with their
    pointer arguments.

    A string pointer is NULL or a zero-terminated string (given without its
    terminator).  An output argument is NULL or points to a cell; the functions
    return the return code and the cell afterwards, so that "stores nothing"
    can be told from "stores NULL".  Memory management is in Heap.v. *)
From Verif Require Import Base Uenv Utf8 Puny Lookup.

Definition ptr := option (list Z).
Definition cell := option ptr.

(** if (output) *output = v; *)
Definition store (o : cell) (v : ptr) : cell := match o with None => None | Some _ => Some v end.

Definition result := out (Z * cell).

(** The end of a function that hands out [r] through [o]. *)
Definition deliver (o : cell) (m : out (list Z)) : result :=
  match m with
  | Ok r => Ok (IDN2_OK, store o (Some r))
  | Fail rc => Ok (rc, o)
  | Undef => Undef
  | NoFuel => NoFuel
  end.

(** The conversions of libunistring between UTF-8 and the encoding of the
    locale (u8_strconv_from_encoding, u8_strconv_to_encoding with
    iconveh_error); [None] is NULL with errno other than ENOMEM. *)
Record locale := Locale {
  from_locale : list Z -> option (list Z);
  to_locale : list Z -> option (list Z)
}.

(** The string in a zero-terminated buffer holding [l] and a terminator: u32_strlen,
    u8_strlen stop at the first zero. *)
Fixpoint upto0 (l : list Z) : list Z :=
  match l with
  | [] => []
  | c :: r => if c =? 0 then [] else c :: upto0 r
  end.

(** *output of a call made with the address of a local variable. *)
Definition contents (c : cell) : ptr := match c with Some p => p | None => None end.

(** * lib/decode.c *)

(** decode.c:89-90, the test for an A-label; either case of x and n. *)
Definition ace_anycase (s : list Z) : bool :=
  match s with
  | a :: b :: c :: d :: _ =>
      ((a =? 120) || (a =? 88)) && ((b =? 110) || (b =? 78)) && (c =? 45) && (d =? 45)
  | _ => false
  end.

(** decode.c:89-131: one label; label_u32 has 63 entries. *)
Definition unicode_label (s : list Z) : out (list Z) :=
  if ace_anycase s then puny_decode (skipn 4 s) LABEL_MAX LABEL_MAX
  else
    let* l := conv (u8_to_u32 s) IDN2_ENCODING_ERROR in
    if LABEL_MAX <? zlen l then Fail IDN2_TOO_BIG_LABEL else Ok l.

(** decode.c:81-139: the loop over the labels.  [acc] is out_u32 so far
    (256 entries); the loop stops when *e is NUL, so a final empty label is
    not visited. *)
Fixpoint unicode_labels (labels : list (list Z)) (acc : list Z) : out (list Z) :=
  match labels with
  | [] => Ok acc
  | s :: rest =>
      match s, rest with
      | [], [] => Ok acc
      | _, _ =>
          let dot := match rest with [] => 0 | _ => 1 end in
          let* l := unicode_label s in
          if DOMAIN_MAX <? zlen acc + zlen l + dot then Fail IDN2_TOO_BIG_DOMAIN
          else if DOMAIN_MAX + 1 <? zlen acc + zlen l then Undef (* u32_cpy *)
          else
            match rest with
            | [] => Ok (acc ++ l)
            | _ =>
                let* acc' := put (DOMAIN_MAX + 1) (acc ++ l) 46 in
                unicode_labels rest acc'
            end
      end
  end.

(** decode.c:69-154 for a non-NULL input; the terminator is written to
    out_u32[out_len] (decode.c:145). *)
Definition unicode (s : list Z) : out (list Z) :=
  let* o := unicode_labels (split_dots s) [] in
  if DOMAIN_MAX <? zlen o then Undef else Ok o.

(** decode.c:63-159 [idn2_to_unicode_8z4z]. *)
Definition to_unicode_8z4z (input : ptr) (output : cell) (flags : Z) : result :=
  match input with
  | None => Ok (IDN2_OK, store output None)
  | Some s => deliver output (unicode s)
  end.

(** decode.c:182-217 [idn2_to_unicode_4z4z]; output_u32 is a local variable
    holding [junk]. *)
Definition to_unicode_4z4z (junk : ptr) (input : ptr) (output : cell) (flags : Z) : result :=
  match input with
  | None => Ok (IDN2_OK, store output None)
  | Some l =>
      match u32_to_u8 (upto0 l ++ [0]) with
      | None => Ok (IDN2_ENCODING_ERROR, output)
      | Some b =>
          let* (rc, loc) := to_unicode_8z4z (Some (upto0 b)) (Some junk) flags in
          if rc =? IDN2_OK then Ok (rc, store output (contents loc)) else Ok (rc, output)
      end
  end.

(** u32_cpy (dst, src, n) into an array of the caller. *)
Definition copy_to (dst src : list Z) (n : Z) : out (list Z) :=
  if (zlen dst <? n) || (zlen src <? n) then Undef
  else Ok (firstn (Z.to_nat n) src ++ skipn (Z.to_nat n) dst).

(** decode.c:245-282 [idn2_to_unicode_44i].  [inp]: the first inlen elements of
    the array in; [arr]: the array out, NULL or with its real size; [outlen]:
    NULL or the value of *outlen.  Returns the code, out and *outlen. *)
Definition to_unicode_44i (junk : ptr) (inp : option (list Z)) (arr : option (list Z)) (outlen : option Z) (flags : Z)
  : out (Z * option (list Z) * option Z) :=
  match inp with
  | None => Ok (IDN2_OK, arr, match outlen with Some _ => Some 0 | None => None end)
  | Some l =>
      let* (rc, loc) := to_unicode_4z4z junk (Some (upto0 (l ++ [0]))) (Some junk) flags in
      if negb (rc =? IDN2_OK) then Ok (rc, arr, outlen)
      else
        match contents loc with
        | None => Undef (* u32_strlen (NULL) *)
        | Some r =>
            let len := zlen (upto0 r) in
            let* arr' :=
              match arr, outlen with
              | Some a, Some n => let* a' := copy_to a r (if len <? n then len else n) in Ok (Some a')
              | _, _ => Ok arr
              end in
            Ok (IDN2_OK, arr', match outlen with Some _ => Some len | None => None end)
        end
  end.

(** decode.c:305-334 [idn2_to_unicode_8z8z]. *)
Definition to_unicode_8z8z (junk : ptr) (input : ptr) (output : cell) (flags : Z) : result :=
  let* (rc, loc) := to_unicode_8z4z input (Some junk) flags in
  match input with
  | None => Ok (rc, output)
  | Some _ =>
      if negb (rc =? IDN2_OK) then Ok (rc, output)
      else
        match contents loc with
        | None => Undef
        | Some r =>
            match u32_to_u8 (upto0 r ++ [0]) with
            | None => Ok (IDN2_ENCODING_ERROR, output)
            | Some b => Ok (IDN2_OK, store output (Some (upto0 b)))
            end
        end
  end.

(** decode.c:358-395 [idn2_to_unicode_8zlz]. *)
Definition to_unicode_8zlz (L : locale) (junk : ptr) (input : ptr) (output : cell) (flags : Z) : result :=
  let* (rc, loc) := to_unicode_8z8z junk input (Some junk) flags in
  match input with
  | None => Ok (rc, output)
  | Some _ =>
      if negb (rc =? IDN2_OK) then Ok (rc, output)
      else
        match contents loc with
        | None => Undef
        | Some b =>
            match to_locale L b with
            | None => Ok (IDN2_ENCODING_ERROR, output)
            | Some r => Ok (IDN2_OK, store output (Some r))
            end
        end
  end.

(** decode.c:420-448 [idn2_to_unicode_lzlz]. *)
Definition to_unicode_lzlz (L : locale) (junk : ptr) (input : ptr) (output : cell) (flags : Z) : result :=
  match input with
  | None => Ok (IDN2_OK, store output None)
  | Some s =>
      match from_locale L s with
      | None => Ok (IDN2_ICONV_FAIL, output)
      | Some b => to_unicode_8zlz L junk (Some b) output flags
      end
  end.

(** * lib/lookup.c *)
Section Lookup.
  Variable U : uenv.

  (** lookup.c:532-621 [idn2_lookup_u8]. *)
  Definition idn2_lookup_u8 (src : ptr) (lookupname : cell) (flags : Z) : result :=
    match src with
    | None => Ok (IDN2_OK, store lookupname None)
    | Some s => deliver lookupname (lookup_u8 U s flags)
    end.

  (** lookup.c:657-684 [idn2_lookup_ul]. *)
  Definition idn2_lookup_ul (L : locale) (src : ptr) (lookupname : cell) (flags : Z) : result :=
    match src with
    | None => idn2_lookup_u8 None lookupname (Z.lor flags IDN2_NFC_INPUT)
    | Some s =>
        match from_locale L s with
        | None => Ok (IDN2_ICONV_FAIL, lookupname)
        | Some b => idn2_lookup_u8 (Some b) lookupname (Z.lor flags IDN2_NFC_INPUT)
        end
    end.

  (** lookup.c:787-832 [idn2_to_ascii_4i2].  [input]: NULL or the first inlen
      elements of the array. *)
  Definition to_ascii_4i2 (junk : ptr) (input : option (list Z)) (output : cell) (flags : Z) : result :=
    match input with
    | None => Ok (IDN2_OK, store output None)
    | Some l =>
        match u32_to_u8 (l ++ [0]) with
        | None => Ok (IDN2_ENCODING_ERROR, output)
        | Some b =>
            let* (rc, loc) := idn2_lookup_u8 (Some (upto0 b)) (Some junk) flags in
            if rc =? IDN2_OK then Ok (rc, store output (contents loc)) else Ok (rc, output)
        end
    end.

  (** lookup.c:723-752 [idn2_to_ascii_4i].  [output]: NULL or the caller's
      array with its real size; returned with its contents afterwards. *)
  Definition to_ascii_4i (junk : ptr) (input : option (list Z)) (output : option (list Z)) (flags : Z)
    : out (Z * option (list Z)) :=
    match input with
    | None =>
        match output with
        | None => Ok (IDN2_OK, None)
        | Some [] => Undef
        | Some (_ :: a) => Ok (IDN2_OK, Some (0 :: a))
        end
    | Some l =>
        let* (rc, loc) := to_ascii_4i2 junk (Some l) (Some junk) flags in
        if rc =? IDN2_OK then
          match contents loc with
          | None => Undef (* strlen (NULL) *)
          | Some r =>
              let len := zlen (upto0 r) in
              if 63 <? len then Ok (IDN2_TOO_BIG_DOMAIN, output)
              else
                match output with
                | None => Ok (rc, None)
                | Some a => let* a' := copy_to a r len in Ok (rc, Some a')
                end
          end
        else Ok (rc, output)
    end.

  (** lookup.c:853-880 [idn2_to_ascii_4z]. *)
  Definition to_ascii_4z (input : ptr) (output : cell) (flags : Z) : result :=
    match input with
    | None => Ok (IDN2_OK, store output None)
    | Some l =>
        match u32_to_u8 (upto0 l ++ [0]) with
        | None => Ok (IDN2_ENCODING_ERROR, output)
        | Some b => idn2_lookup_u8 (Some (upto0 b)) output flags
        end
    end.

  (** lookup.c:901-906 [idn2_to_ascii_8z]. *)
  Definition to_ascii_8z (input : ptr) (output : cell) (flags : Z) : result :=
    idn2_lookup_u8 input output flags.

  (** lookup.c:928-933 [idn2_to_ascii_lz]. *)
  Definition to_ascii_lz (L : locale) (input : ptr) (output : cell) (flags : Z) : result :=
    idn2_lookup_ul L input output flags.
End Lookup.

(* "xn--mnchen-3ya.DE" to Unicode. *)
Example unicode_muenchen :
  to_unicode_8z4z (Some [88;110;45;45;109;110;99;104;101;110;45;51;121;97;46;68;69]) (Some None) 0
  = Ok (0, Some (Some [109;252;110;99;104;101;110;46;68;69])).
Proof. reflexivity. Qed.
