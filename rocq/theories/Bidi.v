(** lib/bidi.c. *)
From Verif Require Import Base Uenv.

Section Bidi.
  Variable U : uenv.

  (** bidi.c:40-52 [_isBidi]. *)
  Fixpoint is_bidi (label : list Z) : bool :=
    match label with
    | [] => false
    | c :: r =>
        let bc := ue_bidi U c in
        if bidi_eqb bc UC_BIDI_R || bidi_eqb bc UC_BIDI_AL || bidi_eqb bc UC_BIDI_AN then true
        else is_bidi r
    end.

  (** bidi.c:69-89: loop of the left-to-right case over label[1..]. *)
  Fixpoint bidi_ltr (label : list Z) (endok : bool) : out unit :=
    match label with
    | [] => if endok then Ok tt else Fail IDN2_BIDI
    | c :: r =>
        let bc := ue_bidi U c in
        if bidi_eqb bc UC_BIDI_L || bidi_eqb bc UC_BIDI_EN || bidi_eqb bc UC_BIDI_NSM then bidi_ltr r true
        else if negb (bidi_eqb bc UC_BIDI_ES) && negb (bidi_eqb bc UC_BIDI_CS) && negb (bidi_eqb bc UC_BIDI_ET)
                && negb (bidi_eqb bc UC_BIDI_ON) && negb (bidi_eqb bc UC_BIDI_BN)
        then Fail IDN2_BIDI
        else bidi_ltr r false
    end.

  (** bidi.c:95-117: loop of the right-to-left case over label[1..]. *)
  Fixpoint bidi_rtl (label : list Z) (endok : bool) : out unit :=
    match label with
    | [] => if endok then Ok tt else Fail IDN2_BIDI
    | c :: r =>
        let bc := ue_bidi U c in
        if bidi_eqb bc UC_BIDI_R || bidi_eqb bc UC_BIDI_AL || bidi_eqb bc UC_BIDI_EN
           || bidi_eqb bc UC_BIDI_AN || bidi_eqb bc UC_BIDI_NSM then bidi_rtl r true
        else if negb (bidi_eqb bc UC_BIDI_ES) && negb (bidi_eqb bc UC_BIDI_CS) && negb (bidi_eqb bc UC_BIDI_ET)
                && negb (bidi_eqb bc UC_BIDI_ON) && negb (bidi_eqb bc UC_BIDI_BN)
        then Fail IDN2_BIDI
        else bidi_rtl r false
    end.

  (** bidi.c:54-123 [_idn2_bidi]. *)
  Definition bidi (label : list Z) : out unit :=
    if negb (is_bidi label) then Ok tt
    else match label with
         | [] => Undef  (* label[0] of an empty label *)
         | c :: r =>
             match ue_bidi U c with
             | UC_BIDI_L => bidi_ltr r true
             | UC_BIDI_R | UC_BIDI_AL => bidi_rtl r true
             | _ => Fail IDN2_BIDI
             end
         end.
End Bidi.
