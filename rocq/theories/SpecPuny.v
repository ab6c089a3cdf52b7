(** Specification vocabulary for Punycode, written from RFC 3492 and
    independent of the model in Puny.v.  Unbounded integers throughout. *)
From Verif Require Import Base.

(** Arrays of uint32_t. *)
Definition u32_list (L : list Z) : Prop := Forall (fun c => 0 <= c < 4294967296) L.

(** The ASCII characters of a label, in order. *)
Definition ascii_part (L : list Z) : list Z := filter (fun c => c <? 128) L.

(** Letters, digits, hyphen, underscore: what the decoder accepts. *)
Definition ldh_or_underscore (c : Z) : Prop :=
  97 <= c <= 122 \/ 65 <= c <= 90 \/ 48 <= c <= 57 \/ c = 45 \/ c = 95.

(** Code points both directions let through: up to 10FFFF, no high surrogate. *)
Definition permitted (c : Z) : Prop := 0 <= c <= 1114111 /\ ~ (55296 <= c <= 56319).

Definition lower_or_digit (c : Z) : Prop := 97 <= c <= 122 \/ 48 <= c <= 57.

(** Canonical spelling: everything up to the last '-' is kept, what follows is
    lower-cased, and '_' is read as 'a'. *)
Definition canon_char (c : Z) : Z :=
  if (65 <=? c) && (c <=? 90) then c + 32 else if c =? 95 then 97 else c.
Fixpoint canon (s : list Z) : list Z :=
  match s with
  | [] => []
  | c :: r => if existsb (Z.eqb 45) s then c :: canon r else map canon_char s
  end.

(** RFC 3492 section 5: digit values. *)
Inductive rfc_digit : Z -> Z -> Prop :=
| rfc_lower : forall d, 0 <= d <= 25 -> rfc_digit (97 + d) d
| rfc_upper : forall d, 0 <= d <= 25 -> rfc_digit (65 + d) d
| rfc_number : forall d, 26 <= d <= 35 -> rfc_digit (48 + (d - 26)) d.

(** RFC 3492 section 6.1: bias adaptation (base 36, tmin 1, tmax 26, skew 38,
    damp 700). *)
Inductive rfc_adapt_loop : Z -> Z -> Prop :=
| rfc_al_stop : forall d, d <= (36 - 1) * 26 / 2 -> rfc_adapt_loop d ((36 - 1 + 1) * d / (d + 38))
| rfc_al_step : forall d b, (36 - 1) * 26 / 2 < d -> rfc_adapt_loop (d / (36 - 1)) b ->
    rfc_adapt_loop d (36 + b).
Definition rfc_adapt (delta numpoints : Z) (first : bool) (bias : Z) : Prop :=
  let d := if first then delta / 700 else delta / 2 in
  rfc_adapt_loop (d + d / numpoints) bias.

(** RFC 3492 section 3.3: generalized variable-length integers, thresholds of
    section 6.2. *)
Definition rfc_t (k bias : Z) : Z := Z.max 1 (Z.min 26 (k - bias)).
Inductive rfc_varint (bias : Z) : Z -> list Z -> Z -> Prop :=
| rfc_vi_last : forall k c d, rfc_digit c d -> d < rfc_t k bias -> rfc_varint bias k [c] d
| rfc_vi_more : forall k c d s v, rfc_digit c d -> rfc_t k bias <= d ->
    rfc_varint bias (k + 36) s v ->
    rfc_varint bias k (c :: s) (d + (36 - rfc_t k bias) * v).

(** RFC 3492 section 6.2: insertion steps from state (n, i, bias). *)
Inductive rfc_steps : list Z -> Z -> Z -> Z -> list Z -> list Z -> Prop :=
| rfc_done : forall o n i bias, rfc_steps o n i bias [] o
| rfc_step : forall o n i bias s rest q bias' a b L n' i',
    rfc_varint bias 36 s q ->
    n' = n + (i + q) / (zlen o + 1) ->
    i' = (i + q) mod (zlen o + 1) ->
    o = a ++ b -> zlen a = i' ->
    rfc_adapt q (zlen o + 1) (i =? 0) bias' ->
    rfc_steps (a ++ n' :: b) n' (i' + 1) bias' rest L ->
    rfc_steps o n i bias (s ++ rest) L.

(** [rfc_decodes s L]: RFC 3492 decodes [s] to [L] (initial n = 128, i = 0,
    bias = 72); the basic code points are those before the last '-'. *)
Inductive rfc_decodes : list Z -> list Z -> Prop :=
| rfc_plain : forall s L, ~ In 45 s -> rfc_steps [] 128 0 72 s L -> rfc_decodes s L
| rfc_delim : forall bs s L, bs <> [] -> ~ In 45 s -> rfc_steps bs 128 0 72 s L ->
    rfc_decodes (bs ++ 45 :: s) L.
