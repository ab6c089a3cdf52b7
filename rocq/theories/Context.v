(** lib/context.c. *)
From Coq Require Import String.
From Verif Require Import Base Uenv DataTypes Tables.

Section Context.
  Variable U : uenv.

  (** context.c:71-82: search backwards from index [tmp]. *)
  Fixpoint zwnj_back (label : list Z) (tmp : nat) : out unit :=
    let* cp := rd label (Z.of_nat tmp) in
    let jt := ue_join U cp in
    if joining_eqb jt UC_JOINING_TYPE_L || joining_eqb jt UC_JOINING_TYPE_D then Ok tt
    else match tmp with
         | O => Fail IDN2_CONTEXTJ
         | S tmp' => if joining_eqb jt UC_JOINING_TYPE_T then zwnj_back label tmp' else Fail IDN2_CONTEXTJ
         end.

  (** context.c:84-95: search forward over label[pos+1..llen-1]. *)
  Fixpoint zwnj_fwd (rest : list Z) : out unit :=
    match rest with
    | [] => Ok tt  (* loop condition tmp < llen fails *)
    | cp :: rest' =>
        let jt := ue_join U cp in
        if joining_eqb jt UC_JOINING_TYPE_R || joining_eqb jt UC_JOINING_TYPE_D then Ok tt
        else match rest' with
             | [] => Fail IDN2_CONTEXTJ  (* tmp == llen - 1 *)
             | _ => if joining_eqb jt UC_JOINING_TYPE_T then zwnj_fwd rest' else Fail IDN2_CONTEXTJ
             end
    end.

  (** context.c:52-59, 102-108: does a Virama precede position [pos]? *)
  Definition virama_before (label : list Z) (pos : Z) : out bool :=
    if 0 <? pos then
      let* before_cp := rd label (pos - 1) in
      Ok (ue_ccc U before_cp =? UC_CCC_VR)
    else Ok false.

  (** context.c:36-113 [_idn2_contextj_rule]. *)
  Definition contextj_rule (label : list Z) (pos : Z) : out unit :=
    let llen := zlen label in
    if llen =? 0 then Ok tt
    else
      let* cp := rd label pos in
      let* j := contextj_p cp in
      if negb j then Ok tt
      else if cp =? 0x200C then
        let* v := virama_before label pos in
        if v then Ok tt
        else if (pos =? 0) || (pos =? llen - 1) then Fail IDN2_CONTEXTJ
        else
          let* _ := zwnj_back label (Z.to_nat (pos - 1)) in
          zwnj_fwd (skipn (Z.to_nat (pos + 1)) label)
      else if cp =? 0x200D then
        let* v := virama_before label pos in
        if v then Ok tt else Fail IDN2_CONTEXTJ
      else Fail IDN2_CONTEXTJ_NO_RULE.

  (** context.c:115-124 [_uc_script_name]. *)
  Definition script_name (uc : Z) : String.string :=
    match ue_script U uc with None => ""%string | Some n => n end.

  Definition is_arabic_indic (c : Z) : bool := (0x660 <=? c) && (c <=? 0x669).
  Definition is_ext_arabic_indic (c : Z) : bool := (0x6f0 <=? c) && (c <=? 0x6f9).

  (** context.c:126-226 [_idn2_contexto_rule].  The case labels 0x660..0x669
      and 0x6F0..0x6F9 are consecutive and written as ranges. *)
  Definition contexto_rule (label : list Z) (pos : Z) : out unit :=
    let llen := zlen label in
    let* cp := rd label pos in
    let* o := contexto_p cp in
    if negb o then Ok tt
    else if cp =? 0xB7 then
      if llen <? 3 then Fail IDN2_CONTEXTO
      else if (pos =? 0) || (pos =? llen - 1) then Fail IDN2_CONTEXTO
      else
        let* b := rd label (pos - 1) in
        let* a := rd label (pos + 1) in
        if (b =? 0x6C) && (a =? 0x6C) then Ok tt else Fail IDN2_CONTEXTO
    else if cp =? 0x375 then
      if pos =? llen - 1 then Fail IDN2_CONTEXTO
      else
        let* a := rd label (pos + 1) in
        if String.eqb (script_name a) "Greek"%string then Ok tt else Fail IDN2_CONTEXTO
    else if (cp =? 0x5F3) || (cp =? 0x5F4) then
      if pos =? 0 then Fail IDN2_CONTEXTO
      else
        let* b := rd label (pos - 1) in
        if String.eqb (script_name b) "Hebrew"%string then Ok tt else Fail IDN2_CONTEXTO
    else if is_arabic_indic cp then
      if existsb is_ext_arabic_indic label then Fail IDN2_CONTEXTO else Ok tt
    else if is_ext_arabic_indic cp then
      if existsb is_arabic_indic label then Fail IDN2_CONTEXTO else Ok tt
    else if cp =? 0x30FB then
      if existsb (fun c => String.eqb (script_name c) "Hiragana"%string || String.eqb (script_name c) "Katakana"%string
                           || String.eqb (script_name c) "Han"%string) label
      then Ok tt else Fail IDN2_CONTEXTO
    else Fail IDN2_CONTEXTO_NO_RULE.

  (** context.c:228-270 [_idn2_contexto_with_rule]. *)
  Definition contexto_with_rule (cp : Z) : bool :=
    (cp =? 0xB7) || (cp =? 0x375) || (cp =? 0x5F3) || (cp =? 0x5F4)
    || is_arabic_indic cp || is_ext_arabic_indic cp || (cp =? 0x30FB).
End Context.
