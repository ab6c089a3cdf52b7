(** lib/idna.c. *)
From Verif Require Import Base Uenv DataTypes Tables Gentr46 Tr46Map Utf8 Bidi Context.

(** Test selection flags, lib/idna.h:36-58. *)
Definition TEST_NFC := 0x1.
Definition TEST_2HYPHEN := 0x2.
Definition TEST_HYPHEN_STARTEND := 0x4.
Definition TEST_LEADING_COMBINING := 0x8.
Definition TEST_DISALLOWED := 0x10.
Definition TEST_CONTEXTJ := 0x20.
Definition TEST_CONTEXTJ_RULE := 0x40.
Definition TEST_CONTEXTO := 0x80.
Definition TEST_CONTEXTO_WITH_RULE := 0x100.
Definition TEST_CONTEXTO_RULE := 0x200.
Definition TEST_UNASSIGNED := 0x400.
Definition TEST_BIDI := 0x800.
Definition TEST_TRANSITIONAL := 0x1000.
Definition TEST_NONTRANSITIONAL := 0x2000.
Definition TEST_ALLOW_STD3_DISALLOWED := 0x4000.

(** C's [if (x & f)]. *)
Definition has (x f : Z) : bool := negb (Z.land x f =? 0).

Fixpoint list_eqb (a b : list Z) : bool :=
  match a, b with
  | [], [] => true
  | x :: a', y :: b' => (x =? y) && list_eqb a' b'
  | _, _ => false
  end.

Section Idna.
  Variable U : uenv.

  (** idna.c:54-85 [_isNFC]: 1, 0 or -1.  The loop's [it++] on a supplementary
      code point skips the next element. *)
  Fixpoint isNFC_loop (label : list Z) (skip : bool) (last result : Z) : out Z :=
    match label with
    | [] => Ok result
    | ch :: r =>
        if skip then isNFC_loop r false last result
        else
          let cc := ue_ccc U ch in
          if (cc <? last) && negb (cc =? 0) then Ok 0
          else
            let* m := get_nfcqc_map ch in
            match m with
            | Some q =>
                if negb (nq_check q =? 0) then Ok 0
                else isNFC_loop r (0x10000 <=? ch) cc (-1)
            | None => isNFC_loop r (0x10000 <=? ch) cc result
            end
    end.
  Definition isNFC (label : list Z) : out Z := isNFC_loop label false 0 1.

  (** idna.c:87-121 [_idn2_u8_to_u32_nfc]. *)
  Definition u8_to_u32_nfc (src : list Z) (nfc : bool) : out (list Z) :=
    let* p := conv (u8_to_u32 src) IDN2_ENCODING_ERROR in
    if nfc then
      let* k := isNFC p in
      if k =? 0 then conv (ue_nfc U p) IDN2_NFC else Ok p
    else Ok p.

  (** idna.c:123-133 [_idn2_ascii_p]. *)
  Definition ascii_p (src : list Z) : bool := forallb (fun b => b <? 128) src.

  (** A loop over a label that stops with an error when [bad] says so. *)
  Fixpoint each (f : Z -> out unit) (l : list Z) : out unit :=
    match l with
    | [] => Ok tt
    | c :: r => let* _ := f c in each f r
    end.
  (** A loop over the positions [i .. i+n-1]. *)
  Fixpoint each_pos (f : Z -> out unit) (n : nat) (i : Z) : out unit :=
    match n with
    | O => Ok tt
    | S n' => let* _ := f i in each_pos f n' (i + 1)
    end.

  (** Is the TR46 status of [c] one of the two STD3 ones? (idna.c:183-187, 285-288) *)
  Definition std3_exempt (m : idnamap) : out bool :=
    let* a := map_is m FLG_DISALLOWED_STD3_VALID in
    if a then Ok true else map_is m FLG_DISALLOWED_STD3_MAPPED.

  (** idna.c:138-154. *)
  Definition test_nfc (label : list Z) : out unit :=
    let* p := conv (ue_nfc U label) IDN2_NFC in
    if list_eqb label p then Ok tt else Fail IDN2_NOT_NFC.
  (** idna.c:156-160. *)
  Definition test_2hyphen (label : list Z) : out unit :=
    match label with
    | _ :: _ :: c2 :: c3 :: _ => if (c2 =? 0x2d) && (c3 =? 0x2d) then Fail IDN2_2HYPHEN else Ok tt
    | _ => Ok tt
    end.
  (** idna.c:162-166. *)
  Definition test_hyphen_startend (label : list Z) : out unit :=
    match label with
    | [] => Ok tt
    | c :: _ => if (c =? 0x2d) || (last label 0 =? 0x2d) then Fail IDN2_HYPHEN_STARTEND else Ok tt
    end.
  (** idna.c:168-172. *)
  Definition test_leading_combining (label : list Z) : out unit :=
    match label with
    | [] => Ok tt
    | c :: _ => if ue_mark U c then Fail IDN2_LEADING_COMBINING else Ok tt
    end.
  (** idna.c:177-192, body. *)
  Definition test_disallowed1 (what c : Z) : out unit :=
    let* d := disallowed_p c in
    if d then
      if has what (Z.lor TEST_TRANSITIONAL TEST_NONTRANSITIONAL) && has what TEST_ALLOW_STD3_DISALLOWED then
        let* (m, _) := get_idna_map c in
        let* x := std3_exempt m in
        if x then Ok tt else Fail IDN2_DISALLOWED
      else Fail IDN2_DISALLOWED
    else Ok tt.
  (** idna.c:199-200. *)
  Definition test_contextj1 (c : Z) : out unit :=
    let* j := contextj_p c in if j then Fail IDN2_CONTEXTJ else Ok tt.
  (** idna.c:220-221. *)
  Definition test_contexto1 (c : Z) : out unit :=
    let* o := contexto_p c in if o then Fail IDN2_CONTEXTO else Ok tt.
  (** idna.c:228-230. *)
  Definition test_contexto_with1 (c : Z) : out unit :=
    let* o := contexto_p c in
    if o && negb (contexto_with_rule c) then Fail IDN2_CONTEXTO_NO_RULE else Ok tt.
  (** idna.c:250-251. *)
  Definition test_unassigned1 (c : Z) : out unit :=
    let* u := unassigned_p c in if u then Fail IDN2_UNASSIGNED else Ok tt.
  (** idna.c:267-269. *)
  Definition test_dot1 (c : Z) : out unit :=
    if c =? 0x2e then Fail IDN2_DOT_IN_LABEL else Ok tt.
  (** idna.c:276-292, body. *)
  Definition test_status1 (what c : Z) : out unit :=
    let transitional := has what TEST_TRANSITIONAL in
    let* (m, _) := get_idna_map c in
    let* v := map_is m FLG_VALID in
    let* ok := (if v then Ok true
                else if negb transitional then map_is m FLG_DEVIATION
                else Ok false) in
    if ok then Ok tt
    else
      let* x := (if has what TEST_ALLOW_STD3_DISALLOWED then std3_exempt m else Ok false) in
      if x then Ok tt
      else Fail (if transitional then IDN2_INVALID_TRANSITIONAL else IDN2_INVALID_NONTRANSITIONAL).

  Definition when (b : bool) (t : out unit) : out unit := if b then t else Ok tt.

  (** idna.c:135-296 [_idn2_label_test]. *)
  Definition label_test (what : Z) (label : list Z) : out unit :=
    let* _ := when (has what TEST_NFC) (test_nfc label) in
    let* _ := when (has what TEST_2HYPHEN) (test_2hyphen label) in
    let* _ := when (has what TEST_HYPHEN_STARTEND) (test_hyphen_startend label) in
    let* _ := when (has what TEST_LEADING_COMBINING) (test_leading_combining label) in
    let* _ := when (has what TEST_DISALLOWED) (each (test_disallowed1 what) label) in
    let* _ := when (has what TEST_CONTEXTJ) (each test_contextj1 label) in
    let* _ := when (has what TEST_CONTEXTJ_RULE) (each_pos (contextj_rule U label) (length label) 0) in
    let* _ := when (has what TEST_CONTEXTO) (each test_contexto1 label) in
    let* _ := when (has what TEST_CONTEXTO_WITH_RULE) (each test_contexto_with1 label) in
    let* _ := when (has what TEST_CONTEXTO_RULE) (each_pos (contexto_rule U label) (length label) 0) in
    let* _ := when (has what TEST_UNASSIGNED) (each test_unassigned1 label) in
    let* _ := when (has what TEST_BIDI) (bidi U label) in
    when (has what (Z.lor TEST_TRANSITIONAL TEST_NONTRANSITIONAL))
      (let* _ := each test_dot1 label in each (test_status1 what) label).
End Idna.
