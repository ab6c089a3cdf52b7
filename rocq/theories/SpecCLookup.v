(** What it means that the C text of lookup.c returns. *)
From Coq Require Import String.
From Verif Require Import Base Uenv SpecUtf8 SpecLookup CLang CLookup SpecCPuny.
Local Open Scope string_scope.
Local Open Scope list_scope.
Local Open Scope Z_scope.

Section Spec.
  Variable U : uenv.
  Variable lab : list Z -> Z -> Z + list Z.
  Definition l_returns (f : cfun) (args : list (cty * Z)) (mem : list (string * carr)) (v : Z) (mem' : list (string * carr)) : Prop :=
    returns (fun n => run (lookup_program U lab) f 1 n args mem) (v, mem').

  (** set_default_flags (&flags). *)
  Definition default_returns (flags rc flags' : Z) : Prop :=
    l_returns c_set_default_flags [] [("flags", (I32, [Some flags]))] rc [("flags", (I32, [Some flags']))].
  (** c_strncasecmp (s1, s2, n). *)
  Definition compare_returns (s1 s2 : list Z) (n v : Z) : Prop :=
    let mem := [("s1", (U8, map Some s1)); ("s2", (U8, map Some s2))] in l_returns c_c_strncasecmp [(U64, n)] mem v mem.
  (** What of a string counts: at most [n] bytes, and nothing from a NUL on. *)
  Fixpoint counted (n : nat) (s : list Z) : list Z :=
    match n, s with S n, c :: r => if c =? 0 then [] else c :: counted n r | _, _ => [] end.

  (** _tr46 on the code points [l] and a NUL: it fails with [rc], or asks for [size] bytes. *)
  Definition count_returns (flags : Z) (l : list Z) (rc : Z) (size : option Z) : Prop :=
    l_returns c_tr46_count [(U64, zlen l + 1); (I32, flags)] [("domain_u32", (U32, map Some (l ++ [0]))); ("malloc", (U64, [None]))]
      rc [("domain_u32", (U32, map Some (l ++ [0]))); ("malloc", (U64, [size]))].
  (** Given [tmp], it leaves [tmp'] there and passes [len] elements of it on. *)
  Definition write_returns (flags : Z) (l : list Z) (tmp tmp' : list (option Z)) (len : Z) : Prop :=
    l_returns c_tr46_write [(U64, zlen l + 1); (I32, flags); (I32, if opt_transitional flags then 1 else 0)]
      [("domain_u32", (U32, map Some (l ++ [0]))); ("tmp", (U32, tmp)); ("u32_normalize", (U64, [None]))]
      0 [("domain_u32", (U32, map Some (l ++ [0]))); ("tmp", (U32, tmp')); ("u32_normalize", (U64, [Some len]))].
  (** The checks of the labels of [l], after which there is a NUL, and maybe more. *)
  Definition labels_return (flags : Z) (l rest : list Z) (rc : Z) : Prop :=
    let mem := [("domain_u32", (U32, map Some (l ++ 0 :: rest)))] in
    l_returns c_tr46_labels [(I32, flags); (I32, if opt_transitional flags then 1 else 0)] mem rc mem.
  (** idn2_lookup_u8 on the string [s]; the array _lookupname is [buf] afterwards, and
      [size] bytes are asked for. *)
  Definition lookup_returns (flags : Z) (s : list Z) (rc : Z) (buf : list (option Z)) (size : option Z) : Prop :=
    l_returns c_lookup_u8 [(I32, flags)] [("src", (U8, map Some (s ++ [0]))); ("_lookupname", (U8, repeat None 256)); ("malloc", (U64, [None]))]
      rc [("src", (U8, map Some (s ++ [0]))); ("_lookupname", (U8, buf)); ("malloc", (U64, [size]))].

  (** label (src, zlen s, dst, &dstlen, flags) on the bytes [s], with dstlen = 63: the error code, or
      what it leaves in dst.  Whatever the arrays held before; what the callees allocate is large
      enough for what they write. *)
  Definition label_mem (s : list Z) (dst : list (option Z)) (dstlen : Z) (label_u32 src_allocated p : list (option Z)) : list (string * carr) :=
    [("src", (U8, map Some s)); ("dst", (U8, dst)); ("dstlen", (U64, [Some dstlen])); ("label_u32", (U32, label_u32)); ("src_allocated", (U8, src_allocated)); ("p", (U32, p))].
  Definition label_returns (f : Z) (s : list Z) (mem : list (string * carr)) (v : Z) (mem' : list (string * carr)) : Prop :=
    returns (fun n => run (lookup_program U lab) c_label 2 n [(U64, zlen s); (I32, f)] mem) (v, mem').
  Definition label_text (f : Z) (s : list Z) (r : Z + list Z) : Prop :=
    forall dst u sa p, zlen dst = 63 -> zlen u = 63 -> 252 <= zlen sa -> 1008 + 4 * zlen s <= zlen p ->
    match r with
    | inl rc => rc <> 0 /\ exists dst' n u' sa' p', label_returns f s (label_mem s dst 63 u sa p) rc (label_mem s dst' n u' sa' p')
    | inr t => exists rest u' sa' p', label_returns f s (label_mem s dst 63 u sa p) 0 (label_mem s (map Some t ++ rest) (zlen t) u' sa' p')
    end.

  (** The parts of _tr46 one after the other on the string [s]: u8_to_u32, count, malloc,
      write, u32_normalize, the checks, u32_to_u8.  An error code, or the string.  What
      malloc gives is as large as asked for. *)
  Inductive tr46_text (g : Z) (s : list Z) : Z + list Z -> Prop :=
  | tt_utf8 : ~ (exists l, utf8 l s) -> tr46_text g s (inl IDN2_ENCODING_ERROR)
  | tt_count : forall l rc, utf8 l s -> count_returns g l rc None -> rc <> 0 -> tr46_text g s (inl rc)
  | tt_nfc : forall l tmp m, utf8 l s -> count_returns g l 0 (Some (4 * zlen tmp)) -> write_returns g l tmp (map Some m) (zlen m) -> ue_nfc U m = None -> tr46_text g s (inl IDN2_ENCODING_ERROR)
  | tt_labels : forall l tmp m n rest rc, utf8 l s -> count_returns g l 0 (Some (4 * zlen tmp)) -> write_returns g l tmp (map Some m) (zlen m) -> ue_nfc U m = Some (n ++ 0 :: rest) -> ~ In 0 n ->
      labels_return g n rest rc -> rc <> 0 -> tr46_text g s (inl rc)
  | tt_done : forall l tmp m n o, utf8 l s -> count_returns g l 0 (Some (4 * zlen tmp)) -> write_returns g l tmp (map Some m) (zlen m) -> ue_nfc U m = Some (n ++ [0]) -> ~ In 0 n ->
      labels_return g n [] 0 -> utf8 (n ++ [0]) (o ++ [0]) -> tr46_text g s (inr o).
  (** The parts of idn2_lookup_u8: set_default_flags, _tr46, the loop over the labels. *)
  Inductive lookup_text (f : Z) (s : list Z) : Z + list Z -> Prop :=
  | lt_flags : forall rc g, default_returns f rc g -> rc <> 0 -> lookup_text f s (inl rc)
  | lt_tr46 : forall g rc, default_returns f 0 g -> opt_no_tr46 g = false -> tr46_text g s (inl rc) -> lookup_text f s (inl rc)
  | lt_error : forall g o rc buf, default_returns f 0 g -> (if opt_no_tr46 g then o = s else tr46_text g s (inr o)) -> lookup_returns g o rc buf None -> rc <> 0 -> lookup_text f s (inl rc)
  | lt_done : forall g o d rest, default_returns f 0 g -> (if opt_no_tr46 g then o = s else tr46_text g s (inr o)) -> lookup_returns g o 0 (map Some (d ++ [0]) ++ rest) (Some (zlen d + 1)) -> lookup_text f s (inr d).
End Spec.
(** label() as declared, on a label of a C string: an error code that is an int other than
    IDN2_OK, or at most 63 bytes. *)
Definition label_like (lab : list Z -> Z -> Z + list Z) : Prop :=
  forall s f, Forall (fun b => 0 < b <= 255) s -> ~ In 46 s -> zlen s < two64 ->
    match lab s f with inl rc => rc <> 0 /\ -2147483648 <= rc <= 2147483647 | inr t => Forall (fun b => 0 <= b <= 255) t /\ zlen t <= 63 end.
(** [lab] is what the text of label() computes, on labels shorter than 2^62 bytes. *)
Definition label_is (U : uenv) (lab : list Z -> Z -> Z + list Z) : Prop :=
  label_like lab /\ forall s f, Forall (fun b => 0 < b <= 255) s -> ~ In 46 s -> 4 * zlen s < two64 -> 0 <= f < 2147483648 -> label_text U lab f s (lab s f).
