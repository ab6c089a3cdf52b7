(** The library once more, with its dynamic memory: which blocks each function
    allocates, reads and frees, in which order, and what it returns when an
    allocation fails.  The computations between the memory operations are those
    of the other files.

    A block is never written after it has been filled, so a pointer into a
    block is modelled as the block together with the data found there; every
    use checks that the block is still allocated ([touch]). *)
From Verif Require Import Base Uenv Puny Utf8 Bidi Context Idna Lookup Api Register.

Definition ENOMEM := 12.
Definition EILSEQ := 84.

(** The live blocks with their contents, the next block name, the number of
    calls of the allocator so far, and errno. *)
Record heap := Heap { live : list (nat * list Z); fresh : nat; calls : nat; errno : Z }.

(** What the allocator does at its n-th call: whether an allocation fails that
    would bring the memory in use to so many cells (characters or code points),
    and whether free leaves something in errno (allowed before POSIX.1-2024). *)
Record allocator := Allocator { fails : nat -> Z -> bool; spoils : nat -> option Z }.
Fixpoint cells (l : list (nat * list Z)) : Z := match l with [] => 0 | (_, x) :: r => zlen x + cells r end.
Definition request (o : option (list Z)) : Z := match o with Some l => zlen l | None => 0 end.
(** What malloc returns: its contents are not read before they are written. *)
Definition blank (n : Z) : list Z := repeat 0 (Z.to_nat n).

(** Computations on the heap; [Undef] on a double free and on the use of a
    block that is not allocated.  They never produce [Fail]. *)
Definition M (A : Type) := heap -> out (A * heap).
Definition ret {A} (a : A) : M A := fun h => Ok (a, h).
Definition hbind {A B} (m : M A) (k : A -> M B) : M B := fun h => let* (a, h') := m h in k a h'.
Notation "'let!' x ':=' e 'in' k" := (hbind e (fun x => k))
  (at level 200, x pattern, e at level 100, k at level 200).

(** A computation without memory operations: a result or a return code. *)
Definition try {A} (m : out A) : M (A + Z) := fun h =>
  match m with
  | Ok a => Ok (inl a, h)
  | Fail rc => Ok (inr rc, h)
  | Undef => Undef
  | NoFuel => NoFuel
  end.
(** The same where the C code has no error exit. *)
Definition must {A} (m : out A) : M A := fun h =>
  match m with Ok a => Ok (a, h) | NoFuel => NoFuel | _ => Undef end.
Definition undef {A} : M A := fun _ => Undef.

Fixpoint find_block (n : nat) (l : list (nat * list Z)) : option (list Z) :=
  match l with
  | [] => None
  | (m, x) :: r => if Nat.eqb m n then Some x else find_block n r
  end.
Fixpoint drop_block (n : nat) (l : list (nat * list Z)) : list (nat * list Z) :=
  match l with
  | [] => []
  | (m, x) :: r => if Nat.eqb m n then r else (m, x) :: drop_block n r
  end.
Fixpoint fill_block (n : nat) (x : list Z) (l : list (nat * list Z)) : list (nat * list Z) :=
  match l with
  | [] => []
  | (m, y) :: r => if Nat.eqb m n then (m, x) :: r else (m, y) :: fill_block n x r
  end.

(** Where a string lives: with the caller or in a variable of a function, or in
    a block. *)
Inductive addr := Caller (l : list Z) | Block (n : nat).

Definition load (a : addr) : M (list Z) := fun h =>
  match a with
  | Caller l => Ok (l, h)
  | Block n => match find_block n (live h) with Some l => Ok (l, h) | None => Undef end
  end.
Definition touch (a : addr) : M unit := let! _ := load a in ret tt.
(** A zero-terminated string; [Caller] strings are given without terminator. *)
Definition cstr (a : addr) : M (list Z) :=
  let! l := load a in ret (match a with Caller _ => l | Block _ => upto0 l end).

(** What a local pointer variable points to. *)
Definition local (p : option nat) : M addr := match p with Some n => ret (Block n) | None => undef end.

Definition fill (n : nat) (x : list Z) : M unit := fun h =>
  match find_block n (live h) with
  | Some _ => Ok (tt, Heap (fill_block n x (live h)) (fresh h) (calls h) (errno h))
  | None => Undef
  end.

(** errno == ENOMEM. *)
Definition nomem : M bool := fun h => Ok (errno h =? ENOMEM, h).

Section Alloc.
  Variable E : allocator.

  (** A call that returns a new block holding [o], or NULL with errno set:
      ENOMEM when there is no memory, something else when [o] is [None].
      Stands for malloc, strdup, u32_cpy_alloc and, with NULL as result buffer,
      u8_to_u32, u32_to_u8, u32_normalize, u8_strconv_from_encoding and
      u8_strconv_to_encoding of libunistring, which leave nothing else behind. *)
  Definition acquire (o : option (list Z)) : M (option nat) := fun h =>
    if fails E (calls h) (cells (live h) + request o) then Ok (None, Heap (live h) (fresh h) (S (calls h)) ENOMEM)
    else match o with
         | None => Ok (None, Heap (live h) (fresh h) (S (calls h)) EILSEQ)
         | Some l => Ok (Some (fresh h), Heap ((fresh h, l) :: live h) (S (fresh h)) (S (calls h)) (errno h))
         end.

  Definition free (p : option nat) : M unit := fun h =>
    let e := match spoils E (calls h) with Some e => e | None => errno h end in
    match p with
    | None => Ok (tt, Heap (live h) (fresh h) (S (calls h)) e)
    | Some n =>
        match find_block n (live h) with
        | Some _ => Ok (tt, Heap (drop_block n (live h)) (fresh h) (S (calls h)) e)
        | None => Undef
        end
    end.

  (** if (errno == ENOMEM) return IDN2_MALLOC; return rc; *)
  Definition no_memory_or (rc : Z) : M Z := let! b := nomem in ret (if b then IDN2_MALLOC else rc).
End Alloc.

(** An output argument: NULL, or a variable holding NULL or a pointer. *)
Definition slot := option (option nat).
(** if (output) *output = p; *)
Definition put_slot (o : slot) (p : option nat) : slot := match o with None => None | Some _ => Some p end.
(** The value of a local variable whose address was passed. *)
Definition of_slot (o : slot) : option nat := match o with Some p => p | None => None end.

Section Memory.
  Variable E : allocator.
  Variable U : uenv.

  (** * lib/idna.c *)

  (** idna.c:87-121 [_idn2_u8_to_u32_nfc]; [old] is the value of *out before. *)
  Definition m_u8_to_u32_nfc (a : addr) (s : list Z) (nfc : bool) (old : option nat) : M (Z * option nat) :=
    let! _ := touch a in
    let! p := acquire E (u8_to_u32 s) in
    match p with
    | None => let! rc := no_memory_or IDN2_ENCODING_ERROR in ret (rc, old)
    | Some n =>
        if nfc then
          let! l := load (Block n) in
          let! k := must (isNFC U l) in
          if k =? 0 then
            let! _ := touch (Block n) in
            let! tmp := acquire E (ue_nfc U l) in
            let! _ := free E (Some n) in
            match tmp with
            | None => let! rc := no_memory_or IDN2_NFC in ret (rc, old)
            | Some m => ret (IDN2_OK, Some m)
            end
          else ret (IDN2_OK, Some n)
        else ret (IDN2_OK, Some n)
    end.

  (** idna.c:156-293: the tests behind the one for NFC, which allocate nothing. *)
  Definition later_tests (what : Z) (label : list Z) : out unit :=
    let* _ := when (has what TEST_2HYPHEN) (test_2hyphen label) in
    let* _ := when (has what TEST_HYPHEN_STARTEND) (test_hyphen_startend label) in
    let* _ := when (has what TEST_LEADING_COMBINING) (test_leading_combining U label) in
    let* _ := when (has what TEST_DISALLOWED) (each (test_disallowed1 what) label) in
    let* _ := when (has what TEST_CONTEXTJ) (each test_contextj1 label) in
    let* _ := when (has what TEST_CONTEXTJ_RULE) (each_pos (contextj_rule U label) (length label) 0) in
    let* _ := when (has what TEST_CONTEXTO) (each test_contexto1 label) in
    let* _ := when (has what TEST_CONTEXTO_WITH_RULE) (each test_contexto_with1 label) in
    let* _ := when (has what TEST_CONTEXTO_RULE) (each_pos (contexto_rule U label) (length label) 0) in
    let* _ := when (has what TEST_UNASSIGNED) (each test_unassigned1 label) in
    let* _ := when (has what TEST_BIDI) (bidi U label) in
    when (has what (Z.lor TEST_TRANSITIONAL TEST_NONTRANSITIONAL))
      (let* _ := each test_dot1 label in each (test_status1 what) label).
  Definition rc_only {A} (r : A + Z) : Z := match r with inl _ => IDN2_OK | inr rc => rc end.

  (** idna.c:135-296 [_idn2_label_test]. *)
  Definition m_label_test (what : Z) (a : addr) (label : list Z) : M Z :=
    let rest := let! _ := touch a in let! r := try (later_tests what label) in ret (rc_only r) in
    if has what TEST_NFC then
      let! _ := touch a in
      let! p := acquire E (ue_nfc U label) in
      match p with
      | None => no_memory_or IDN2_NFC
      | Some n =>
          let! _ := touch a in
          let! l := load (Block n) in
          let ok := list_eqb label l in
          let! _ := free E (Some n) in
          if ok then rest else ret IDN2_NOT_NFC
      end
    else rest.

  (** * lib/lookup.c *)

  (** lookup.c:208-249: from the code points to dst. *)
  Definition label_encode (p : list Z) (src_org : option (list Z)) (dstlen flags : Z) : out (list Z) :=
    if dstlen <? 4 then Undef
    else
      let* enc := puny_encode p (dstlen - 4) (dstlen - 4) in
      let dst := ace_prefix ++ enc in
      match src_org with
      | Some org =>
          if casecmp_eq org dst then Ok dst else Fail IDN2_ALABEL_ROUNDTRIP_FAILED
      | None =>
          if negb (has flags IDN2_NO_ALABEL_ROUNDTRIP) then
            match puny_decode enc LABEL_MAX LABEL_MAX with
            | Ok l32 => if list_eqb p l32 then Ok dst else Fail IDN2_ALABEL_ROUNDTRIP_FAILED
            | Fail _ => Fail IDN2_ALABEL_ROUNDTRIP_FAILED
            | Undef => Undef
            | NoFuel => NoFuel
            end
          else Ok dst
      end.

  (** lookup.c:185-254.  [a], [s]: src; [org]: src_org; [sa]: src_allocated.
      Returns rc and dst. *)
  Definition m_label_tail (a : addr) (s : list Z) (org : option (addr * list Z)) (sa : option nat) (dstlen flags : Z)
    : M (Z * list Z) :=
    let! (rc, p) := m_u8_to_u32_nfc a s (has flags IDN2_NFC_INPUT) None in
    let! r :=
      (if negb (rc =? IDN2_OK) then ret (inr rc)
       else
         let! q := local p in
         let! l := load q in
         let! rc := (if negb (has flags IDN2_TRANSITIONAL) then m_label_test (label_tests flags) q l else ret IDN2_OK) in
         if negb (rc =? IDN2_OK) then ret (inr rc)
         else
           let! _ := touch q in
           let! _ := match org with Some (a0, _) => touch a0 | None => ret tt end in
           try (label_encode l (match org with Some (_, s0) => Some s0 | None => None end) dstlen flags)) in
    let! _ := free E p in
    let! _ := free E sa in
    ret (match r with inl d => (IDN2_OK, d) | inr rc => (rc, []) end).

  (** lookup.c:126-255 [label]. *)
  Definition m_label (a : addr) (src : list Z) (dstlen flags : Z) : M (Z * list Z) :=
    let! _ := touch a in
    if ascii_p src then
      if negb (has flags IDN2_NO_ALABEL_ROUNDTRIP) && has_ace_prefix src then
        let! d := try (puny_decode (skipn 4 src) LABEL_MAX LABEL_MAX) in
        match d with
        | inr rc => ret (rc, [])
        | inl l32 =>
            let! sa := acquire E (u32_to_u8 l32) in
            match sa with
            | None => let! rc := no_memory_or IDN2_ENCODING_ERROR in ret (rc, [])
            | Some n =>
                let! s := load (Block n) in
                m_label_tail (Block n) s (Some (a, src)) sa dstlen flags
            end
        end
      else if LABEL_MAX <? zlen src then ret (IDN2_TOO_BIG_LABEL, [])
      else if dstlen <? zlen src then ret (IDN2_TOO_BIG_DOMAIN, [])
      else ret (IDN2_OK, src)
    else m_label_tail a src None None dstlen flags.

  (** lookup.c:410-469: the loop over the labels of domain_u32, block [d].
      [inl err]: the loop has ended; [inr rc]: the function has returned. *)
  Fixpoint m_tr46_checks (d : nat) (flags : Z) (labels : list (list Z)) (err : Z) : M (Z + Z) :=
    let std3 := if has flags IDN2_USE_STD3_ASCII_RULES then 0 else TEST_ALLOW_STD3_DISALLOWED in
    let! _ := touch (Block d) in
    match labels with
    | [] => ret (inl err)
    | s :: rest =>
        match s, rest with
        | [], [] => ret (inl err)
        | _, _ =>
            if has_ace_prefix s then
              let! ace := acquire E (u32_to_u8 (skipn 4 s)) in
              match ace with
              | None =>
                  let! _ := free E (Some d) in
                  let! rc := no_memory_or IDN2_ENCODING_ERROR in ret (inr rc)
              | Some n =>
                  let! l := load (Block n) in
                  let! r := try (puny_decode l LABEL_MAX LABEL_MAX) in
                  let! _ := free E ace in
                  match r with
                  | inr rc => let! _ := free E (Some d) in ret (inr rc)
                  | inl name =>
                      let! rc := m_label_test (Z.lor TR46_NONTRANSITIONAL_CHECK std3) (Caller name) name in
                      m_tr46_checks d flags rest (if rc =? IDN2_OK then err else rc)
                  end
              end
            else
              let! rc := m_label_test
                (Z.lor (if has flags IDN2_TRANSITIONAL then TR46_TRANSITIONAL_CHECK else TR46_NONTRANSITIONAL_CHECK) std3)
                (Block d) s in
              m_tr46_checks d flags rest (if rc =? IDN2_OK then err else rc)
        end
    end.

  (** lookup.c:262-489 [_tr46]; [old]: the value of *out before. *)
  Definition m_tr46 (a : addr) (flags : Z) (old : option nat) : M (Z * option nat) :=
    let! src := cstr a in
    let! p := acquire E (u8_to_u32 (src ++ [0])) in
    match p with
    | None => let! rc := no_memory_or IDN2_ENCODING_ERROR in ret (rc, old)
    | Some n =>
        let! l := load (Block n) in
        let! len2 := try (tr46_len flags (removelast l) 0) in
        match len2 with
        | inr rc => let! _ := free E p in ret (rc, old)
        | inl len2 =>
            if DOMAIN_MAX <=? len2 then let! _ := free E p in ret (IDN2_TOO_BIG_DOMAIN, old)
            else
              let! tmp := acquire E (Some (blank (len2 + 1))) in
              match tmp with
              | None => let! _ := free E p in ret (IDN2_MALLOC, old)
              | Some t =>
                  let! l := load (Block n) in
                  let! x := must (tr46_map (len2 + 1) flags (removelast l) []) in
                  if len2 + 1 <? zlen x + 1 then undef
                  else
                    let! _ := fill t (x ++ [0]) in
                    let! _ := free E p in
                    let! x := load (Block t) in
                    let! p := acquire E (ue_nfc U x) in
                    let! _ := free E tmp in
                    match p with
                    | None => let! rc := no_memory_or IDN2_ENCODING_ERROR in ret (rc, old)
                    | Some d =>
                        let! l := load (Block d) in
                        match until0 l with
                        | None => undef
                        | Some name =>
                            let! r := m_tr46_checks d flags (split_dots name) IDN2_OK in
                            match r with
                            | inr rc => ret (rc, old)
                            | inl err =>
                                if err =? IDN2_OK then
                                  let! l := load (Block d) in
                                  let! o := acquire E (u32_to_u8 l) in
                                  let! _ := free E p in
                                  match o with
                                  | None => let! rc := no_memory_or IDN2_ENCODING_ERROR in ret (rc, old)
                                  | Some _ => ret (err, o)
                                  end
                                else let! _ := free E p in ret (err, old)
                            end
                        end
                    end
              end
        end
    end.

  (** lookup.c:563-606: the loop over the labels of [a]; [sa]: src_allocated.
      Returns rc and _lookupname; src_allocated is freed. *)
  Fixpoint m_lookup_labels (a : addr) (sa : option nat) (flags : Z) (labels : list (list Z)) (acc : list Z)
    : M (Z * list Z) :=
    match labels with
    | [] => let! _ := free E sa in ret (IDN2_OK, acc)
    | l :: rest =>
        let last := match rest with [] => true | _ => false end in
        let! _ := touch a in
        let! (rc, tmp) := m_label a l LABEL_MAX flags in
        if negb (rc =? IDN2_OK) then let! _ := free E sa in ret (rc, [])
        else
          let! _ := touch a in
          if DOMAIN_MAX - (if (zlen tmp =? 0) && last then 1 else 2) <? zlen acc + zlen tmp
          then let! _ := free E sa in ret (IDN2_TOO_BIG_DOMAIN, [])
          else if DOMAIN_MAX + 1 <? zlen acc + zlen tmp then undef
          else
            let acc := acc ++ tmp in
            if last then
              if DOMAIN_MAX <? zlen acc then undef
              else let! _ := free E sa in ret (IDN2_OK, acc)
            else if DOMAIN_MAX <? zlen acc + 1
            then let! _ := free E sa in ret (IDN2_TOO_BIG_DOMAIN, [])
            else
              let acc := acc ++ [46] in
              if DOMAIN_MAX <? zlen acc then undef
              else m_lookup_labels a sa flags rest acc
    end.

  (** if (o) \{ m = allocated copy of r; if (!m) return IDN2_MALLOC; *o = m; \}
      return IDN2_OK; (lookup.c:608-619, register.c:127-135, 153-160, 198-204) *)
  Definition hand_out (o : slot) (r : list Z) : M (Z * slot) :=
    match o with
    | None => ret (IDN2_OK, None)
    | Some _ =>
        let! m := acquire E (Some r) in
        match m with
        | None => ret (IDN2_MALLOC, o)
        | Some _ => ret (IDN2_OK, Some m)
        end
    end.

  (** lookup.c:532-621 [idn2_lookup_u8]; [junk]: out (lookup.c:553) before it is
      set. *)
  Definition m_lookup_u8 (junk : option nat) (src : option addr) (lookupname : slot) (flags : Z) : M (Z * slot) :=
    match src with
    | None => ret (IDN2_OK, put_slot lookupname None)
    | Some a =>
        let! flags := try (set_default_flags flags) in
        match flags with
        | inr rc => ret (rc, lookupname)
        | inl flags =>
            let! t :=
              (if negb (has flags IDN2_NO_TR46) then
                 let! (rc, out) := m_tr46 a flags junk in
                 if negb (rc =? IDN2_OK) then ret (inr rc)
                 else let! b := local out in ret (inl (b, out))
               else ret (inl (a, None))) in
            match t with
            | inr rc => ret (rc, lookupname)
            | inl (b, sa) =>
                let! s := cstr b in
                let! (rc, r) := m_lookup_labels b sa flags (split_dots s) [] in
                if negb (rc =? IDN2_OK) then ret (rc, lookupname)
                else hand_out lookupname r
            end
        end
    end.

  (** lookup.c:657-684 [idn2_lookup_ul]. *)
  Definition m_lookup_ul (L : locale) (junk : option nat) (src : option addr) (lookupname : slot) (flags : Z) : M (Z * slot) :=
    match src with
    | None =>
        let! (rc, o) := m_lookup_u8 junk None lookupname (Z.lor flags IDN2_NFC_INPUT) in
        let! _ := free E None in
        ret (rc, o)
    | Some a =>
        let! s := cstr a in
        let! p := acquire E (from_locale L s) in
        match p with
        | None => let! rc := no_memory_or IDN2_ICONV_FAIL in ret (rc, lookupname)
        | Some n =>
            let! (rc, o) := m_lookup_u8 junk (Some (Block n)) lookupname (Z.lor flags IDN2_NFC_INPUT) in
            let! _ := free E p in
            ret (rc, o)
        end
    end.

  (** if (rc == IDN2_OK) \{ if (output) *output = p; else free (p); \} return rc;
      (lookup.c:823-831, decode.c:208-216) *)
  Definition pass_on (rc : Z) (output : slot) (p : option nat) : M (Z * slot) :=
    if rc =? IDN2_OK then
      match output with
      | Some _ => ret (rc, Some p)
      | None => let! _ := free E p in ret (rc, None)
      end
    else ret (rc, output).

  (** lookup.c:787-832 [idn2_to_ascii_4i2]; [junk]: the uninitialised variables. *)
  Definition m_to_ascii_4i2 (junk : option nat) (input : option addr) (output : slot) (flags : Z) : M (Z * slot) :=
    match input with
    | None => ret (IDN2_OK, put_slot output None)
    | Some a =>
        let! l := load a in
        let! p := acquire E (Some (blank (zlen l + 1))) in
        match p with
        | None => ret (IDN2_MALLOC, output)
        | Some n =>
            let! _ := touch a in
            let! _ := fill n (l ++ [0]) in
            let! l := load (Block n) in
            let! q := acquire E (u32_to_u8 l) in
            let! _ := free E p in
            match q with
            | None => let! rc := no_memory_or IDN2_ENCODING_ERROR in ret (rc, output)
            | Some m =>
                let! (rc, o) := m_lookup_u8 junk (Some (Block m)) (Some junk) flags in
                let! _ := free E q in
                pass_on rc output (of_slot o)
            end
        end
    end.

  (** lookup.c:723-752 [idn2_to_ascii_4i]; [output]: the caller's array. *)
  Definition m_to_ascii_4i (junk : option nat) (input : option addr) (output : option (list Z)) (flags : Z)
    : M (Z * option (list Z)) :=
    match input with
    | None =>
        match output with
        | None => ret (IDN2_OK, None)
        | Some [] => undef
        | Some (_ :: a) => ret (IDN2_OK, Some (0 :: a))
        end
    | Some a =>
        let! (rc, o) := m_to_ascii_4i2 junk (Some a) (Some junk) flags in
        if rc =? IDN2_OK then
          let! b := local (of_slot o) in
          let! r := load b in
          let len := zlen (upto0 r) in
          let! (rc, output) :=
            (if 63 <? len then ret (IDN2_TOO_BIG_DOMAIN, output)
             else match output with
                  | None => ret (rc, None)
                  | Some a => let! a' := must (copy_to a r len) in ret (rc, Some a')
                  end) in
          let! _ := free E (of_slot o) in
          ret (rc, output)
        else ret (rc, output)
    end.

  (** lookup.c:853-880 [idn2_to_ascii_4z]. *)
  Definition m_to_ascii_4z (junk : option nat) (input : option addr) (output : slot) (flags : Z) : M (Z * slot) :=
    match input with
    | None => ret (IDN2_OK, put_slot output None)
    | Some a =>
        let! l := load a in
        let! p := acquire E (u32_to_u8 (upto0 l ++ [0])) in
        match p with
        | None => let! rc := no_memory_or IDN2_ENCODING_ERROR in ret (rc, output)
        | Some n =>
            let! (rc, o) := m_lookup_u8 junk (Some (Block n)) output flags in
            let! _ := free E p in
            ret (rc, o)
        end
    end.

  (** lookup.c:901-906 [idn2_to_ascii_8z], lookup.c:928-933 [idn2_to_ascii_lz]. *)
  Definition m_to_ascii_8z := m_lookup_u8.
  Definition m_to_ascii_lz := m_lookup_ul.

  (** * lib/decode.c *)

  (** decode.c:81-139: the loop over the labels. *)
  Fixpoint m_unicode_labels (a : addr) (labels : list (list Z)) (acc : list Z) : M (Z * list Z) :=
    let! _ := touch a in
    match labels with
    | [] => ret (IDN2_OK, acc)
    | s :: rest =>
        match s, rest with
        | [], [] => ret (IDN2_OK, acc)
        | _, _ =>
            let dot := match rest with [] => 0 | _ => 1 end in
            let append l (k : list Z -> M (Z * list Z)) :=
              if DOMAIN_MAX + 1 <? zlen acc + zlen l then undef else k (acc ++ l) in
            let next acc :=
              match rest with
              | [] => ret (IDN2_OK, acc)
              | _ => let! acc' := must (put (DOMAIN_MAX + 1) acc 46) in m_unicode_labels a rest acc'
              end in
            if ace_anycase s then
              let! r := try (puny_decode (skipn 4 s) LABEL_MAX LABEL_MAX) in
              match r with
              | inr rc => ret (rc, [])
              | inl l =>
                  if DOMAIN_MAX <? zlen acc + zlen l + dot then ret (IDN2_TOO_BIG_DOMAIN, [])
                  else append l next
              end
            else
              let! p := acquire E (u8_to_u32 s) in
              match p with
              | None => let! rc := no_memory_or IDN2_ENCODING_ERROR in ret (rc, [])
              | Some n =>
                  let! l := load (Block n) in
                  if LABEL_MAX <? zlen l then let! _ := free E p in ret (IDN2_TOO_BIG_LABEL, [])
                  else if DOMAIN_MAX <? zlen acc + zlen l + dot
                  then let! _ := free E p in ret (IDN2_TOO_BIG_DOMAIN, [])
                  else append l (fun acc => let! _ := free E p in next acc)
              end
        end
    end.

  (** decode.c:63-159 [idn2_to_unicode_8z4z]. *)
  Definition m_to_unicode_8z4z (input : option addr) (output : slot) (flags : Z) : M (Z * slot) :=
    match input with
    | None => ret (IDN2_OK, put_slot output None)
    | Some a =>
        let! s := cstr a in
        let! (rc, r) := m_unicode_labels a (split_dots s) [] in
        if negb (rc =? IDN2_OK) then ret (rc, output)
        else
          match output with
          | None => ret (IDN2_OK, None)
          | Some _ =>
              if DOMAIN_MAX <? zlen r then undef  (* out_u32[out_len] *)
              else
                let! p := acquire E (Some r) in
                match p with
                | None => let! rc := no_memory_or IDN2_ENCODING_ERROR in ret (rc, output)
                | Some _ => ret (IDN2_OK, Some p)
                end
          end
    end.

  (** decode.c:182-217 [idn2_to_unicode_4z4z]. *)
  Definition m_to_unicode_4z4z (junk : option nat) (input : option addr) (output : slot) (flags : Z) : M (Z * slot) :=
    match input with
    | None => ret (IDN2_OK, put_slot output None)
    | Some a =>
        let! l := load a in
        let! p := acquire E (u32_to_u8 (upto0 l ++ [0])) in
        match p with
        | None => let! rc := no_memory_or IDN2_ENCODING_ERROR in ret (rc, output)
        | Some n =>
            let! (rc, o) := m_to_unicode_8z4z (Some (Block n)) (Some junk) flags in
            let! _ := free E p in
            pass_on rc output (of_slot o)
        end
    end.

  (** decode.c:245-282 [idn2_to_unicode_44i]. *)
  Definition m_to_unicode_44i (junk : option nat) (inp : option addr) (arr : option (list Z)) (outlen : option Z) (flags : Z)
    : M (Z * option (list Z) * option Z) :=
    match inp with
    | None => ret (IDN2_OK, arr, match outlen with Some _ => Some 0 | None => None end)
    | Some a =>
        let! l := load a in
        let! p := acquire E (Some (blank (zlen l + 1))) in
        match p with
        | None => ret (IDN2_MALLOC, arr, outlen)
        | Some n =>
            let! _ := touch a in
            let! _ := fill n (l ++ [0]) in
            let! (rc, o) := m_to_unicode_4z4z junk (Some (Block n)) (Some junk) flags in
            let! _ := free E p in
            if negb (rc =? IDN2_OK) then ret (rc, arr, outlen)
            else
              let! b := local (of_slot o) in
              let! r := load b in
              let len := zlen (upto0 r) in
              let! arr' :=
                match arr, outlen with
                | Some a, Some n => let! a' := must (copy_to a r (if len <? n then len else n)) in ret (Some a')
                | _, _ => ret arr
                end in
              let! _ := free E (of_slot o) in
              ret (IDN2_OK, arr', match outlen with Some _ => Some len | None => None end)
        end
    end.

  (** decode.c:305-334 [idn2_to_unicode_8z8z]; the new block is described up to
      its terminator. *)
  Definition m_to_unicode_8z8z (junk : option nat) (input : option addr) (output : slot) (flags : Z) : M (Z * slot) :=
    let! (rc, o) := m_to_unicode_8z4z input (Some junk) flags in
    match input with
    | None => ret (rc, output)
    | Some _ =>
        if negb (rc =? IDN2_OK) then ret (rc, output)
        else
          let! b := local (of_slot o) in
          let! r := load b in
          let! q := acquire E (option_map upto0 (u32_to_u8 (upto0 r ++ [0]))) in
          let! _ := free E (of_slot o) in
          match q with
          | None => let! rc := no_memory_or IDN2_ENCODING_ERROR in ret (rc, output)
          | Some _ => pass_on IDN2_OK output q
          end
    end.

  (** decode.c:358-395 [idn2_to_unicode_8zlz]. *)
  Definition m_to_unicode_8zlz (L : locale) (junk : option nat) (input : option addr) (output : slot) (flags : Z) : M (Z * slot) :=
    let! (rc, o) := m_to_unicode_8z8z junk input (Some junk) flags in
    match input with
    | None => ret (rc, output)
    | Some _ =>
        if negb (rc =? IDN2_OK) then ret (rc, output)
        else
          let! b := local (of_slot o) in
          let! s := cstr b in
          let! q := acquire E (to_locale L s) in
          let! (rc, out') :=
            match q with
            | None =>
                let! rc := no_memory_or IDN2_ENCODING_ERROR in
                let! _ := free E q in
                ret (rc, output)
            | Some _ => pass_on IDN2_OK output q
            end in
          let! _ := free E (of_slot o) in
          ret (rc, out')
    end.

  (** decode.c:420-448 [idn2_to_unicode_lzlz]. *)
  Definition m_to_unicode_lzlz (L : locale) (junk : option nat) (input : option addr) (output : slot) (flags : Z) : M (Z * slot) :=
    match input with
    | None => ret (IDN2_OK, put_slot output None)
    | Some a =>
        let! s := cstr a in
        let! p := acquire E (from_locale L s) in
        match p with
        | None => let! rc := no_memory_or IDN2_ICONV_FAIL in ret (rc, output)
        | Some n =>
            let! (rc, o) := m_to_unicode_8zlz L junk (Some (Block n)) output flags in
            let! _ := free E p in
            ret (rc, o)
        end
    end.

  (** * lib/register.c *)

  (** register.c:137-205, U-label only; [junk]: u32 before it is set. *)
  Definition m_reg_ulabel (junk : option nat) (a : addr) (insertname : slot) (flags : Z) : M (Z * slot) :=
    let! u := cstr a in
    if ascii_p u then
      if LABEL_MAX <? zlen u then ret (IDN2_TOO_BIG_LABEL, insertname)
      else let! _ := touch a in hand_out insertname u
    else
      let! (rc, p) := m_u8_to_u32_nfc a u (has flags IDN2_NFC_INPUT) junk in
      if negb (rc =? IDN2_OK) then ret (rc, insertname)
      else
        let! q := local p in
        let! l := load q in
        let! rc := m_label_test REGISTER_TESTS q l in
        if negb (rc =? IDN2_OK) then let! _ := free E p in ret (rc, insertname)
        else
          let! _ := touch q in
          let! e := try (puny_encode l (LABEL_MAX - 4) (LABEL_MAX - 3)) in
          let! _ := free E p in
          match e with
          | inr rc => ret (rc, insertname)
          | inl e =>
              if LABEL_MAX - 3 <=? zlen e then undef
              else hand_out insertname (upto0 (ace_prefix ++ e))
          end.

  (** register.c:86-136, with A-label. *)
  Definition m_reg_alabel (junk : option nat) (u : option addr) (aa : addr) (insertname : slot) : M (Z * slot) :=
    let! a := cstr aa in
    if LABEL_MAX <? zlen a then ret (IDN2_TOO_BIG_LABEL, insertname)
    else if zlen a <=? 4 then ret (IDN2_INVALID_ALABEL, insertname)
    else if negb (list_eqb (firstn 4 a) ace_prefix) then ret (IDN2_INVALID_ALABEL, insertname)
    else if negb (ascii_p a) then ret (IDN2_INVALID_ALABEL, insertname)
    else
      let! d := try (puny_decode (skipn 4 a) (LABEL_MAX * 4) (DOMAIN_MAX * 4)) in
      match d with
      | inr rc => ret (rc, insertname)
      | inl l =>
          match u32_to_u8 l with
          | None => ret (IDN2_ENCODING_ERROR, insertname)
          | Some b =>
              if DOMAIN_MAX + 1 <=? zlen b then undef
              else
                let u8 := upto0 b in
                let! same := match u with
                             | Some ua => let! s := cstr ua in ret (list_eqb s u8)
                             | None => ret true
                             end in
                if negb same then ret (IDN2_UALABEL_MISMATCH, insertname)
                else
                  let! (rc, o) := m_reg_ulabel junk (Caller u8) (Some junk) 0 in
                  if negb (rc =? IDN2_OK) then ret (rc, insertname)
                  else
                    let! t := local (of_slot o) in
                    let! tmp := load t in
                    let! _ := touch aa in
                    let ok := list_eqb a tmp in
                    let! _ := free E (of_slot o) in
                    if ok then let! _ := touch aa in hand_out insertname a
                    else ret (IDN2_UALABEL_MISMATCH, insertname)
          end
      end.

  (** register.c:73-207 [idn2_register_u8]. *)
  Definition m_register_u8 (junk : option nat) (ulabel alabel : option addr) (insertname : slot) (flags : Z) : M (Z * slot) :=
    match alabel, ulabel with
    | None, None => ret (IDN2_OK, put_slot insertname None)
    | Some a, _ => m_reg_alabel junk ulabel a insertname
    | None, Some u => m_reg_ulabel junk u insertname flags
    end.

  (** register.c:238-265 [idn2_register_ul]. *)
  Definition m_register_ul (L : locale) (junk : option nat) (ulabel alabel : option addr) (insertname : slot) (flags : Z)
    : M (Z * slot) :=
    match ulabel with
    | None =>
        let! (rc, o) := m_register_u8 junk None alabel insertname (Z.lor flags IDN2_NFC_INPUT) in
        let! _ := free E None in
        ret (rc, o)
    | Some x =>
        let! s := cstr x in
        let! p := acquire E (from_locale L s) in
        match p with
        | None => let! rc := no_memory_or IDN2_ICONV_FAIL in ret (rc, insertname)
        | Some n =>
            let! (rc, o) := m_register_u8 junk (Some (Block n)) alabel insertname (Z.lor flags IDN2_NFC_INPUT) in
            let! _ := free E p in
            ret (rc, o)
        end
    end.

  (** free.c:46-50 [idn2_free]. *)
  Definition m_idn2_free (p : option nat) : M unit := free E p.
End Memory.
