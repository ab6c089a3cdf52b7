(** What a function does with dynamic memory. *)
From Verif Require Import Base Uenv Api SpecLookup Heap.

(** The blocks in use are not among those handed out next. *)
Definition heap_ok (h : heap) : Prop := forall n l, In (n, l) (live h) -> (n < fresh h)%nat.
Definition unused (h : heap) (n : nat) : Prop := forall l, ~ In (n, l) (live h).

(** Some allocation made between [h] and [h'] failed. *)
Definition ran_out (E : allocator) (h h' : heap) : Prop :=
  exists n, (calls h <= n < calls h')%nat /\ exists k, fails E n k = true.
Definition plentiful (E : allocator) : Prop := forall n k, fails E n k = false.
(** free leaves errno alone, as POSIX.1-2024 asks. *)
Definition keeps_errno (E : allocator) : Prop := forall n, spoils E n = None.
Definition free_spoilt (E : allocator) (h h' : heap) : Prop :=
  exists n, (calls h <= n < calls h')%nat /\ spoils E n <> None.

(** What an output argument shows to the caller: the string in the block it
    points to. *)
Definition shown (h : heap) (o : slot) : cell :=
  match o with
  | None => None
  | Some None => Some None
  | Some (Some n) => Some (option_map snd (List.find (fun b => Nat.eqb (fst b) n) (live h)))
  end.

(** How a call can end that [P] describes, where memory is no issue: with a
    result in one new block that the caller now owns; *)
Inductive ending (E : allocator) (P : cell -> result) (h : heap) (o : slot) : Z -> slot -> heap -> Prop :=
| handed_out : forall n r h', o <> None -> P (Some None) = Ok (IDN2_OK, Some (Some r)) ->
    unused h n -> live h' = (n, r) :: live h ->
    ending E P h o IDN2_OK (Some (Some n)) h'
(** with no block to hand out, just as without memory problems; *)
| nothing_to_hand_out : forall rc o' h', P (shown h o) = Ok (rc, shown h o') -> o' = o \/ o' = Some None ->
    live h' = live h -> (o <> None -> forall r, P (Some None) <> Ok (IDN2_OK, Some (Some r))) ->
    ending E P h o rc o' h'
(** or with IDN2_MALLOC and no trace, after an allocation has failed. *)
| out_of_memory : forall h', live h' = live h -> ran_out E h h' ->
    ending E P h o IDN2_MALLOC o h'.

Definition frugal (E : allocator) (F : slot -> M (Z * slot)) (P : cell -> result) : Prop :=
  forall h o, heap_ok h -> exists rc o' h', F o h = Ok (rc, o', h') /\ heap_ok h' /\ ending E P h o rc o' h'.

(** The same without a promise about the code returned on failure. *)
Definition tidy (F : slot -> M (Z * slot)) : Prop :=
  forall h o, heap_ok h -> exists rc o' h', F o h = Ok (rc, o', h') /\ heap_ok h' /\
    ((live h' = live h /\ (o' = o \/ (rc = IDN2_OK /\ o' = Some None))) \/
     (exists n r, rc = IDN2_OK /\ o <> None /\ o' = Some (Some n) /\ unused h n /\ live h' = (n, r) :: live h)).

(** With memory to spare: just what [P] says. *)
Definition exactly (F : slot -> M (Z * slot)) (P : cell -> result) : Prop :=
  forall h o, heap_ok h -> exists rc o' h', F o h = Ok (rc, o', h') /\ P (shown h o) = Ok (rc, shown h' o').

(** The same for functions that fill arrays of the caller: no block stays behind. *)
Definition frugal_array {A} (E : allocator) (F : M (Z * A)) (P : out (Z * A)) (unchanged : A) : Prop :=
  forall h, heap_ok h -> exists rc a h', F h = Ok (rc, a, h') /\ live h' = live h /\ (fresh h <= fresh h')%nat /\
    (P = Ok (rc, a) \/ (rc = IDN2_MALLOC /\ a = unchanged /\ ran_out E h h')).
Definition tidy_array {A} (F : M (Z * A)) : Prop :=
  forall h, heap_ok h -> exists rc a h', F h = Ok (rc, a, h') /\ live h' = live h /\ (fresh h <= fresh h')%nat.

(** The functions with memory beside those without, on strings of bytes and on
    strings of code points. *)
Definition byte_functions (E : allocator) (U : uenv) (L : locale) (junk : option nat) (j : ptr)
  : list ((option addr -> slot -> Z -> M (Z * slot)) * (ptr -> cell -> Z -> result)) :=
  [ (m_lookup_u8 E U junk, idn2_lookup_u8 U); (m_lookup_ul E U L junk, idn2_lookup_ul U L);
    (m_to_ascii_8z E U junk, to_ascii_8z U); (m_to_ascii_lz E U L junk, to_ascii_lz U L);
    (m_to_unicode_8z4z E, to_unicode_8z4z); (m_to_unicode_8z8z E junk, to_unicode_8z8z j);
    (m_to_unicode_8zlz E L junk, to_unicode_8zlz L j); (m_to_unicode_lzlz E L junk, to_unicode_lzlz L j) ].
Definition wide_functions (E : allocator) (U : uenv) (junk : option nat) (j : ptr)
  : list ((option addr -> slot -> Z -> M (Z * slot)) * (ptr -> cell -> Z -> result)) :=
  [ (m_to_ascii_4z E U junk, to_ascii_4z U); (m_to_ascii_4i2 E U junk, to_ascii_4i2 U j);
    (m_to_unicode_4z4z E junk, to_unicode_4z4z j) ].
(** Arguments: NULL, or a string in the memory of the caller. *)
Definition bytes_arg (i : ptr) : Prop := forall s, i = Some s -> c_string s /\ zlen s < two64.
Definition wide_arg (i : ptr) : Prop := forall l, i = Some l -> zlen l < 4611686018427387904.
Definition given (i : ptr) : option addr := option_map Caller i.
