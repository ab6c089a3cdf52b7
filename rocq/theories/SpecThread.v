(** Calls of the functions of the library by threads, and what each of them may
    come to. *)
From Verif Require Import Base Uenv Api Register SpecNfc SpecCli SpecHeap Heap Thread.

Inductive string_function :=
| FLookupU8 | FLookupUl | FToAscii8z | FToAsciiLz | FToUnicode8z4z | FToUnicode8z8z | FToUnicode8zlz | FToUnicodeLzlz
| FToAscii4z | FToAscii4i2 | FToUnicode4z4z.
Inductive call :=
| CString (f : string_function) (i : ptr) (o : slot) (flags : Z)
| CRegisterU8 (u a : ptr) (o : slot) (flags : Z)
| CRegisterUl (u a : ptr) (o : slot) (flags : Z)
| CToAscii4i (i : ptr) (o : option (list Z)) (flags : Z)
| CToUnicode44i (i : ptr) (arr : option (list Z)) (n : option Z) (flags : Z)
(** A loop: call, read the result, idn2_free, next name. *)
| CLoop (names : list (string_function * ptr * Z)).
Inductive answer :=
| AString (rc : Z) (o : slot)
| AArray (rc : Z) (a : option (list Z))
| ACounted (rc : Z) (a : option (list Z)) (n : option Z)
| AMany (rs : list (Z * ptr)).

(** What a thread does: the call, with the locale of the thread and whatever
    its uninitialised local pointer variables hold. *)
Record job := Job { asked : call; charset : locale; junk : option nat }.

Definition string_call (E : allocator) (U : uenv) (L : locale) (junk : option nat) (f : string_function) : option addr -> slot -> Z -> M (Z * slot) :=
  match f with
  | FLookupU8 => m_lookup_u8 E U junk | FLookupUl => m_lookup_ul E U L junk
  | FToAscii8z => m_to_ascii_8z E U junk | FToAsciiLz => m_to_ascii_lz E U L junk
  | FToUnicode8z4z => m_to_unicode_8z4z E | FToUnicode8z8z => m_to_unicode_8z8z E junk
  | FToUnicode8zlz => m_to_unicode_8zlz E L junk | FToUnicodeLzlz => m_to_unicode_lzlz E L junk
  | FToAscii4z => m_to_ascii_4z E U junk | FToAscii4i2 => m_to_ascii_4i2 E U junk
  | FToUnicode4z4z => m_to_unicode_4z4z E junk
  end.
Definition as_string (m : M (Z * slot)) : M answer := let! (rc, o) := m in ret (AString rc o).
Fixpoint loop (E : allocator) (U : uenv) (L : locale) (junk : option nat) (names : list (string_function * ptr * Z)) : M (list (Z * ptr)) :=
  match names with
  | [] => ret []
  | (f, i, flags) :: rest =>
      let! (rc, o) := string_call E U L junk f (given i) (Some None) flags in
      let! s := match o with Some (Some n) => let! s := load (Block n) in ret (Some s) | _ => ret None end in
      let! _ := m_idn2_free E (of_slot o) in
      let! rs := loop E U L junk rest in
      ret ((rc, s) :: rs)
  end.
Definition do_job (U : uenv) (j : job) (E : allocator) : M answer :=
  match asked j with
  | CString f i o flags => as_string (string_call E U (charset j) (junk j) f (given i) o flags)
  | CRegisterU8 u a o flags => as_string (m_register_u8 E U (junk j) (given u) (given a) o flags)
  | CRegisterUl u a o flags => as_string (m_register_ul E U (charset j) (junk j) (given u) (given a) o flags)
  | CToAscii4i i o flags => let! (rc, a) := m_to_ascii_4i E U (junk j) (given i) o flags in ret (AArray rc a)
  | CToUnicode44i i arr n flags => let! (rc, a, n) := m_to_unicode_44i E (junk j) (given i) arr n flags in ret (ACounted rc a n)
  | CLoop names => let! rs := loop E U (charset j) (junk j) names in ret (AMany rs)
  end.

(** The arguments are what the documentation asks for. *)
Definition wide_function (f : string_function) : bool := match f with FToAscii4z | FToAscii4i2 | FToUnicode4z4z => true | _ => false end.
Definition string_arg (f : string_function) (i : ptr) : Prop := if wide_function f then wide_arg i else bytes_arg i.
Definition job_ok (j : job) : Prop :=
  locale_ok (charset j) /\
  match asked j with
  | CString f i _ _ => string_arg f i
  | CRegisterU8 u a _ _ | CRegisterUl u a _ _ => bytes_arg u /\ bytes_arg a
  | CToAscii4i i o _ => wide_arg i /\ forall a, o = Some a -> 63 <= zlen a
  | CToUnicode44i i arr n _ => wide_arg i /\ match arr, n with Some a, Some n => 0 <= n <= zlen a | _, _ => True end
  | CLoop names => forall f i flags, In (f, i, flags) names -> string_arg f i
  end.

(** The functions of one thread, without memory. *)
Definition string_result (U : uenv) (L : locale) (f : string_function) : ptr -> cell -> Z -> result :=
  match f with
  | FLookupU8 => idn2_lookup_u8 U | FLookupUl => idn2_lookup_ul U L
  | FToAscii8z => to_ascii_8z U | FToAsciiLz => to_ascii_lz U L
  | FToUnicode8z4z => to_unicode_8z4z | FToUnicode8z8z => to_unicode_8z8z None
  | FToUnicode8zlz => to_unicode_8zlz L None | FToUnicodeLzlz => to_unicode_lzlz L None
  | FToAscii4z => to_ascii_4z U | FToAscii4i2 => to_ascii_4i2 U None
  | FToUnicode4z4z => to_unicode_4z4z None
  end.

(** What thread [t] may have come to: [P] is the result of the function, [o] the
    output variable at the start, [m] the blocks that are now the caller's. *)
Inductive told (sc : bool) (place : nat -> Z) (P : cell -> result) (o : slot) : Z -> slot -> memory -> Prop :=
| told_result : forall n z, o <> None -> P (Some None) = Ok (IDN2_OK, Some (Some z)) ->
    told sc place P o IDN2_OK (Some (Some n)) [(place n, z)]
| told_nothing : forall rc o', P (option_map (fun _ => None) o) = Ok (rc, option_map (fun _ => None) o') -> o' = o \/ o' = Some None ->
    (o <> None -> forall z, P (Some None) <> Ok (IDN2_OK, Some (Some z))) -> told sc place P o rc o' []
| told_no_memory : sc = true -> told sc place P o IDN2_MALLOC o [].
Definition answers (U : uenv) (j : job) (t : thread answer) (m : memory) : Prop :=
  match asked j, todo t with
  | CString f i o flags, Done (AString rc o') => told (scarce t) (place t) (fun c => string_result U (charset j) f i c flags) o rc o' m
  | CRegisterU8 u a o flags, Done (AString rc o') => told (scarce t) (place t) (fun c => register_u8 U u a c flags) o rc o' m
  | CRegisterUl u a o flags, Done (AString rc o') => told (scarce t) (place t) (fun c => register_ul U (charset j) u a c flags) o rc o' m
  | CToAscii4i i o flags, Done (AArray rc a) =>
      m = [] /\ (to_ascii_4i U None i o flags = Ok (rc, a) \/ (scarce t = true /\ rc = IDN2_MALLOC /\ a = o))
  | CToUnicode44i i arr n flags, Done (ACounted rc a n') =>
      m = [] /\ (to_unicode_44i None i arr n flags = Ok (rc, a, n') \/ (scarce t = true /\ rc = IDN2_MALLOC /\ a = arr /\ n' = n))
  | CLoop names, Done (AMany rs) =>
      m = [] /\ Forall2 (fun x r => let '(f, i, flags) := x in
        string_result U (charset j) f i (Some None) flags = Ok (fst r, Some (snd r)) \/ (scarce t = true /\ r = (IDN2_MALLOC, None))) names rs
  | _, _ => False
  end.
(** The blocks that are the caller's after a call, whatever free does to errno. *)
Definition leaves (t : thread answer) (m : memory) : Prop :=
  m = [] \/ exists n z, todo t = Done (AString IDN2_OK (Some (Some n))) /\ m = [(place t n, z)].

(** Threads at the start of their jobs. *)
Definition ready (U : uenv) (j : job) (t : thread answer) : Prop := is_code (todo t) (do_job U j).
Definition started (U : uenv) (js : list job) (ts : list (thread answer)) : Prop := Forall job_ok js /\ Forall2 (ready U) js ts.
Definition done (t : thread answer) : Prop := exists a, finished t a.
