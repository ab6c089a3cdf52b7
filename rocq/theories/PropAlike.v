(** Property C84: case and compatibility forms. *)
From Coq Require Import Bool.
From Verif Require Import Base Uenv DataTypes SpecUtf8 SpecTables SpecLabel SpecLookup DataUcd Ucd Utf8 Idna Lookup SpecCanon CanonCases SpecAlike AlikeProofs AlikeTop.

(** Names that differ in case, in compatibility forms, in composition and in
    the order of marks have one mapping, up to canonical equivalence, *)
Theorem C84_mapping : forall tr std3 l m, alike tr std3 l m -> canon (uts46_map tr std3 l) (uts46_map tr std3 m).
Proof. exact alike_mapped. Qed.
Print Assumptions C84_mapping.
(** and one result. *)
Theorem C84_lookup : forall s1 s2 l1 l2 f, c_string s1 -> c_string s2 -> utf8 l1 s1 -> utf8 l2 s2 -> opt_no_tr46 f = false ->
  alike (opt_transitional f) (opt_std3 f) l1 l2 -> mapped_length f l1 < 255 -> mapped_length f l2 < 255 -> lookup_u8 ucd s1 f = lookup_u8 ucd s2 f.
Proof. exact lookup_alike. Qed.
Print Assumptions C84_lookup.
(** A name in lower case, upper case, title case (each character) or folded. *)
Theorem C84_case : forall s s' l (f : Z -> list Z) fl, In f [to_lower; to_upper; to_title; to_fold] -> c_string s -> c_string s' -> utf8 l s -> utf8 (flat_map f l) s' ->
  opt_no_tr46 fl = false -> Forall (fun c => odd (opt_transitional fl) c = false \/ f c = [c]) l -> allowed l -> allowed (flat_map f l) ->
  opt_std3 fl = false \/ (std3_free l /\ std3_free (flat_map f l)) ->
  mapped_length fl l < 255 -> mapped_length fl (flat_map f l) < 255 -> lookup_u8 ucd s fl = lookup_u8 ucd s' fl.
Proof. exact lookup_case_forms. Qed.
Print Assumptions C84_case.
(** A name in NFKC or NFKD. *)
Theorem C84_compat : forall s s' l l' fl, l' = nfkc l \/ l' = nfkd l -> c_string s -> c_string s' -> utf8 l s -> utf8 l' s' -> opt_no_tr46 fl = false -> opt_std3 fl = false ->
  Forall (fun c => odd (opt_transitional fl) c = false \/ compat c = [c]) l -> allowed l -> allowed (flat_map compat l) -> iota_free (flat_map compat l) ->
  mapped_length fl l < 255 -> mapped_length fl l' < 255 -> lookup_u8 ucd s fl = lookup_u8 ucd s' fl.
Proof. exact lookup_nfk_forms. Qed.
Print Assumptions C84_compat.
(** Canonical equivalence (C83) is part of it. *)
Theorem C84_canon : forall tr l m, canon l m -> allowed l -> allowed m -> iota_in_order l -> iota_in_order m -> alike tr false l m.
Proof. exact canon_alike. Qed.
Print Assumptions C84_canon.

(** The excepted characters are no more than need be. *)
Theorem C84_odd : forall tr c, odd tr c = true -> exists x, variant c x /\ allowed (c :: x) /\ ~ canon (map1 tr false c) (uts46_map tr false x).
Proof. exact odd_needed. Qed.
Print Assumptions C84_odd.
(** Upper case of sharp s, unless IDN2_TRANSITIONAL (4) is set: *)
Theorem C84_sharp_s_refuted : exists s s' l r r', c_string s /\ c_string s' /\ utf8 l s /\ utf8 (flat_map to_upper l) s' /\
  lookup_u8 ucd s 0 = Ok r /\ lookup_u8 ucd s' 0 = Ok r' /\ r <> r' /\ lookup_u8 ucd s 4 = lookup_u8 ucd s' 4.
Proof. exact sharp_s. Qed.
Print Assumptions C84_sharp_s_refuted.
(** of dotless i, in any case. *)
Theorem C84_dotless_i_refuted : exists s s' l r r', c_string s /\ c_string s' /\ utf8 l s /\ utf8 (flat_map to_upper l) s' /\
  lookup_u8 ucd s 0 = Ok r /\ lookup_u8 ucd s' 0 = Ok r' /\ r <> r' /\ lookup_u8 ucd s 4 = Ok r /\ lookup_u8 ucd s' 4 = Ok r'.
Proof. exact dotless_i. Qed.
Print Assumptions C84_dotless_i_refuted.

(** Non-vacuity: "BÜCHER" in capitals and not, and a ligature. *)
Example C84_case_1 : flat_map to_lower [0x42; 0xDC; 0x63] = [0x62; 0xFC; 0x63] /\ nfkc [0xFB01; 0xFF21; 0x308] = [0x66; 0x69; 0xC4] /\
  flat_map to_upper [0x149] = [0x2BC; 0x4E] /\ to_title 0x1C6 = [0x1C5] /\ to_fold 0x1E9E = [0x73; 0x73] /\
  lookup_u8 ucd [0x42; 0xC3; 0x9C; 0x63] 0 = lookup_u8 ucd [0x62; 0xC3; 0xBC; 0x63] 0 /\ lookup_u8 ucd [0x62; 0xC3; 0xBC; 0x63] 0 = Ok [120; 110; 45; 45; 98; 99; 45; 120; 107; 97].
Proof. do 6 (split; [vm_compute; reflexivity|]). vm_compute. reflexivity. Qed.
Example C84_case_used : lookup_u8 ucd [0x42; 0xC3; 0x9C; 0x63] 32 = lookup_u8 ucd [0x62; 0xC3; 0xBC; 0x63] 32.
Proof.
  assert (E : flat_map to_lower [0x42; 0xDC; 0x63] = [0x62; 0xFC; 0x63]) by (vm_compute; reflexivity).
  assert (A : allowed [0x42; 0xDC; 0x63]) by (repeat constructor; apply good_ok; vm_compute; reflexivity).
  assert (B : allowed [0x62; 0xFC; 0x63]) by (repeat constructor; apply good_ok; vm_compute; reflexivity).
  apply (C84_case _ _ [0x42; 0xDC; 0x63] to_lower); rewrite ?E; auto.
  - now left.
  - apply c_string_checked; reflexivity.
  - apply c_string_checked; reflexivity.
  - apply Utf8Proofs.u8_to_u32_iff; [apply MapProofs.c_string_bytes, c_string_checked; reflexivity|vm_compute; reflexivity].
  - apply Utf8Proofs.u8_to_u32_iff; [apply MapProofs.c_string_bytes, c_string_checked; reflexivity|vm_compute; reflexivity].
  - right. split; repeat (apply Forall_cons; [split; vm_compute; discriminate|]); apply Forall_nil.
  - vm_compute. reflexivity.
  - vm_compute. reflexivity.
Qed.
