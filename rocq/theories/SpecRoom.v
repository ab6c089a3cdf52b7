(** Enough memory. *)
From Verif Require Import Base Uenv Idna Lookup Api Heap SpecHeap.

(** Allocations succeed as long as no more than [B] cells (characters or code
    points) are in use. *)
Definition roomy (E : allocator) (B : Z) : Prop := forall n k, k <= B -> fails E n k = false.
(** Conversion from and to the encoding of the locale makes strings at most [k]
    times as long. *)
Definition grows (L : locale) (k : Z) : Prop :=
  (forall x s, from_locale L x = Some s -> zlen s <= k * zlen x) /\ (forall x s, to_locale L x = Some s -> zlen s <= k * zlen x).
(** In the heap [h] the call does just what [P] says. *)
Definition exactly_in (h : heap) (F : slot -> M (Z * slot)) (P : cell -> result) : Prop :=
  forall o, exists rc o' h', F o h = Ok (rc, o', h') /\ P (shown h o) = Ok (rc, shown h' o').
Definition size (i : ptr) : Z := match i with Some l => zlen l | None => 0 end.

(** How many cells the functions use at most, given a string of [n] cells:
    without TR46 processing the labels are decoded and normalised one by one,
    else the whole string is mapped into an array of bounded size. *)
Definition lookup_needs (flags n : Z) : Z :=
  if has flags IDN2_NO_TR46 then Z.max (20 * n) 5292 else Z.max (n + 256) 85680.
(** In the order of [byte_functions] and [wide_functions]. *)
Definition byte_needs (k flags n : Z) : list Z :=
  [ lookup_needs flags n; k * n + lookup_needs flags (k * n); lookup_needs flags n; k * n + lookup_needs flags (k * n);
    Z.max n 255; Z.max n 1279; Z.max n (1279 + 1024 * k); 2 * (k * n) + (1279 + 1024 * k) ].
Definition wide_needs (flags n : Z) : list Z :=
  [ 4 * n + 4 + lookup_needs flags (4 * n + 4); 5 * n + 5 + lookup_needs flags (4 * n + 4); 8 * n + 263 ].
Definition register_needs (n : Z) : Z := Z.max (20 * n) 5100.
