(** UTF-8 / UTF-32 conversion.  libidn2 calls libunistring's u8_to_u32 and
    u32_to_u8 (lookup.c:164,276,426,473,811,868; decode.c:110,197,318;
    register.c:113; idna.c:94).  These are external code; the functions below
    transcribe their documented (strict) behaviour: u8_to_u32 fails with EILSEQ
    on ill-formed UTF-8, u32_to_u8 fails with EILSEQ on surrogates and values
    above 0x10FFFF.  [None] is that failure. *)
From Verif Require Import Base.

Definition cont (b : Z) : bool := (128 <=? b) && (b <? 192).

Definition ocons (x : Z) (o : option (list Z)) : option (list Z) :=
  match o with Some l => Some (x :: l) | None => None end.

(** u8_to_u32 on a whole buffer. *)
Fixpoint u8_to_u32 (s : list Z) : option (list Z) :=
  match s with
  | [] => Some []
  | c :: r =>
      if c <? 128 then ocons c (u8_to_u32 r)
      else if c <? 194 then None
      else if c <? 224 then
        match r with
        | c1 :: r1 =>
            if cont c1 then ocons ((c - 192) * 64 + (c1 - 128)) (u8_to_u32 r1) else None
        | _ => None
        end
      else if c <? 240 then
        match r with
        | c1 :: c2 :: r2 =>
            if cont c1 && cont c2 && ((225 <=? c) || (160 <=? c1)) && (negb (c =? 237) || (c1 <? 160))
            then ocons ((c - 224) * 4096 + (c1 - 128) * 64 + (c2 - 128)) (u8_to_u32 r2) else None
        | _ => None
        end
      else if c <? 245 then
        match r with
        | c1 :: c2 :: c3 :: r3 =>
            if cont c1 && cont c2 && cont c3 && ((241 <=? c) || (144 <=? c1)) && ((c <? 244) || (c1 <? 144))
            then ocons ((c - 240) * 262144 + (c1 - 128) * 4096 + (c2 - 128) * 64 + (c3 - 128)) (u8_to_u32 r3)
            else None
        | _ => None
        end
      else None
  end.

(** u8_uctomb. *)
Definition u8_uctomb (c : Z) : option (list Z) :=
  if c <? 0 then None
  else if c <? 128 then Some [c]
  else if c <? 2048 then Some [192 + c / 64; 128 + c mod 64]
  else if c <? 65536 then
    if (55296 <=? c) && (c <? 57344) then None
    else Some [224 + c / 4096; 128 + (c / 64) mod 64; 128 + c mod 64]
  else if c <? 1114112 then
    Some [240 + c / 262144; 128 + (c / 4096) mod 64; 128 + (c / 64) mod 64; 128 + c mod 64]
  else None.

(** u32_to_u8 on a whole buffer. *)
Fixpoint u32_to_u8 (l : list Z) : option (list Z) :=
  match l with
  | [] => Some []
  | c :: r =>
      match u8_uctomb c, u32_to_u8 r with
      | Some b, Some s => Some (b ++ s)
      | _, _ => None
      end
  end.

(** Result of a conversion call as used by the library: a NULL result with
    errno <> ENOMEM becomes [rc]. *)
Definition conv {A} (o : option A) (rc : Z) : out A :=
  match o with Some a => Ok a | None => Fail rc end.
