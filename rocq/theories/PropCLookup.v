(** C95: the C text of lookup.c around label(), run by the rules of C11. *)
From Coq Require Import String.
From Verif Require Import Base Uenv Ucd DataTypes SpecTables SpecUtf8 SpecNfc SpecLookup SpecToAscii SpecRefusal LookupExamples CLang CLookup SpecCPuny SpecCLookup CLookupTop CLookupCases.
Local Open Scope string_scope.
Local Open Scope list_scope.
Local Open Scope Z_scope.

(** set_default_flags. *)
Theorem C95_default_flags : forall U lab f, 0 <= f < 2147483648 ->
  (bad_flags f -> default_returns U lab f IDN2_INVALID_FLAGS f) /\
  (~ bad_flags f -> exists g, default_returns U lab f 0 g /\
     forall i, 0 <= i -> Z.testbit g i = (Z.testbit f i || (i =? 3) && negb (opt_no_tr46 f || opt_transitional f))%bool).
Proof. exact default_ok. Qed.
Print Assumptions C95_default_flags.
Example C95_default_flags_case : forall U lab, default_returns U lab 0 0 8 /\ default_returns U lab 64 0 64 /\ default_returns U lab 12 IDN2_INVALID_FLAGS 12 /\ ~ bad_flags 0 /\ bad_flags 12.
Proof. exact case_default. Qed.

(** c_strncasecmp. *)
Theorem C95_strncasecmp : forall U lab s1 s2 n, Forall (fun b => 0 <= b <= 255) s1 -> Forall (fun b => 0 <= b <= 255) s2 -> zlen s1 < two64 -> 0 <= n <= zlen s1 -> n <= zlen s2 ->
  exists v, compare_returns U lab s1 s2 n v /\ (v = 0 <-> map lower (counted (Z.to_nat n) s1) = map lower (counted (Z.to_nat n) s2)).
Proof. exact compare_ok. Qed.
Print Assumptions C95_strncasecmp.
Example C95_strncasecmp_case : forall U lab, compare_returns U lab [88;110;45;45] [120;78;45;45;97] 4 0 /\ compare_returns U lab [97;0;98] [65;0;99] 3 0 /\
  exists v, compare_returns U lab [120;110;45;91] [120;110;45;123] 4 v /\ v <> 0.
Proof. exact case_compare. Qed.

(** _tr46: the size of the mapped name, the mapped name, the tests of its labels. *)
Theorem C95_tr46_count : forall U lab f l, 0 <= f < 2147483648 -> Forall (fun c => 0 < c < two32) l -> 32 * (zlen l + 1) < two64 ->
  (Exists (fun c => status_of c = Disallowed) l -> count_returns U lab f l IDN2_DISALLOWED None) /\
  (~ Exists (fun c => status_of c = Disallowed) l -> zlen (uts46_map (opt_transitional f) (opt_std3 f) l) < 255 ->
     count_returns U lab f l 0 (Some (4 * (zlen (uts46_map (opt_transitional f) (opt_std3 f) l) + 1)))) /\
  (~ Exists (fun c => status_of c = Disallowed) l -> 255 <= zlen (uts46_map (opt_transitional f) (opt_std3 f) l) -> count_returns U lab f l IDN2_TOO_BIG_DOMAIN None).
Proof. exact count_ok. Qed.
Print Assumptions C95_tr46_count.
Example C95_tr46_count_case : forall U lab, count_returns U lab 8 mixed 0 (Some 12) /\ count_returns U lab 4 mixed 0 (Some 16) /\ count_returns U lab 8 [128] IDN2_DISALLOWED None.
Proof. exact case_count. Qed.
Theorem C95_tr46_write : forall U lab f l, 0 <= f < 2147483648 -> Forall (fun c => 0 < c < two32) l -> 32 * (zlen l + 1) < two64 -> forall tmp,
  let m := uts46_map (opt_transitional f) (opt_std3 f) l in
  zlen m + 1 <= zlen tmp -> write_returns U lab f l tmp (map Some (m ++ [0]) ++ skipn (length m + 1) tmp) (zlen m + 1).
Proof. exact write_ok. Qed.
Print Assumptions C95_tr46_write.
Example C95_tr46_write_case : forall U lab, write_returns U lab 8 mixed (repeat None 3) (map Some [0xDF; 97; 0]) 3 /\ write_returns U lab 4 mixed (repeat None 5) (map Some [115; 115; 97; 0] ++ [None]) 4.
Proof. exact case_write. Qed.
Theorem C95_tr46_labels : forall U lab f n rest ls, nfc_ok U -> 0 <= f < 2147483648 -> Forall scalar n -> ~ In 0 n -> zlen n < 1000000 -> dotted ls n ->
  (Forall (passes46 U f) ls -> labels_return U lab f n rest 0) /\ (forall rc, checks_refuse U f ls rc -> labels_return U lab f n rest rc).
Proof. exact labels_both. Qed.
Print Assumptions C95_tr46_labels.
Theorem C95_tr46_labels_all : forall U f n ls, nfc_ok U -> Forall scalar n -> zlen n < 1000000 -> dotted ls n -> Forall (passes46 U f) ls \/ exists rc, checks_refuse U f ls rc.
Proof. exact labels_cases. Qed.
Print Assumptions C95_tr46_labels_all.
Example C95_tr46_labels_case : forall lab, labels_return ucd lab 8 [97;46;252;46] [] 0 /\ labels_return ucd lab 8 [97;45;46;98] [7] IDN2_HYPHEN_STARTEND /\
  labels_return ucd lab 8 [45;97;46;97;97;45;45;46;98] [] IDN2_2HYPHEN.
Proof. exact case_labels. Qed.

(** The loop of idn2_lookup_u8, with any function for label() that keeps to its array. *)
Theorem C95_name_done : forall U lab, label_like lab -> forall f s ls, c_string s -> zlen s < 9223372036854775807 -> dotted ls s ->
  forall ts, Forall2 (fun l t => lab l f = inr t) ls ts -> zlen (join ts) <= 253 \/ zlen (join ts) = 254 /\ last ts [0] = [] ->
  exists rest, lookup_returns U lab f s 0 (map Some (join ts ++ [0]) ++ rest) (Some (zlen (join ts) + 1)).
Proof. exact lookup_done. Qed.
Print Assumptions C95_name_done.
Theorem C95_name_error : forall U lab, label_like lab -> forall f s ls, c_string s -> zlen s < 9223372036854775807 -> dotted ls s ->
  forall l1 ts x l2 rc, ls = l1 ++ x :: l2 -> Forall2 (fun l t => lab l f = inr t) l1 ts -> zlen (join ts) <= 253 -> lab x f = inl rc ->
  exists buf, lookup_returns U lab f s rc buf None.
Proof. exact lookup_error. Qed.
Print Assumptions C95_name_error.
Theorem C95_name_long : forall U lab, label_like lab -> forall f s ls, c_string s -> zlen s < 9223372036854775807 -> dotted ls s ->
  forall l1 ts x t l2, ls = l1 ++ x :: l2 -> Forall2 (fun l t => lab l f = inr t) l1 ts -> zlen (join ts) <= 253 -> lab x f = inr t ->
  254 < zlen (join (ts ++ [t])) \/ zlen (join (ts ++ [t])) = 254 /\ ~ (t = [] /\ l2 = []) ->
  exists buf, lookup_returns U lab f s IDN2_TOO_BIG_DOMAIN buf None.
Proof. exact lookup_long. Qed.
Print Assumptions C95_name_long.
Theorem C95_name_all : forall (lab : list Z -> Z -> Z + list Z) f ls, ls <> [] ->
  (exists ts, Forall2 (fun l t => lab l f = inr t) ls ts /\ (zlen (join ts) <= 253 \/ zlen (join ts) = 254 /\ last ts [0] = [])) \/
  (exists l1 ts x l2 rc, ls = l1 ++ x :: l2 /\ Forall2 (fun l t => lab l f = inr t) l1 ts /\ zlen (join ts) <= 253 /\ lab x f = inl rc) \/
  (exists l1 ts x l2 t, ls = l1 ++ x :: l2 /\ Forall2 (fun l t => lab l f = inr t) l1 ts /\ zlen (join ts) <= 253 /\ lab x f = inr t /\
     (254 < zlen (join (ts ++ [t])) \/ zlen (join (ts ++ [t])) = 254 /\ ~ (t = [] /\ l2 = []))).
Proof. exact names_cases. Qed.
Print Assumptions C95_name_all.
Example C95_name_case : forall U, label_like toy /\
  (exists rest, lookup_returns U toy 0 [97;46;98;46] 0 (map Some [97;46;98;46;0] ++ rest) (Some 5)) /\
  (exists buf, lookup_returns U toy 0 [97;46;33;46;98] (-5) buf None) /\
  (exists rest, lookup_returns U toy 0 [42;46;42;46;42;46;97] 0 (map Some (join [repeat 120 63; repeat 120 63; repeat 120 63; [97]] ++ [0]) ++ rest) (Some 194)) /\
  (exists buf, lookup_returns U toy 0 [42;46;42;46;42;46;42;46;33] IDN2_TOO_BIG_DOMAIN buf None).
Proof. exact case_names. Qed.

(** The parts together, with what label() returns. *)
Theorem C95_label_like : forall U, nfc_ok U -> label_like (lab_of U).
Proof. exact lab_like. Qed.
Print Assumptions C95_label_like.
Theorem C95_accepts : forall U f s d, nfc_ok U -> c_string s -> 32 * (zlen s + 1) < two64 -> 0 <= f < 2147483648 ->
  (lookup_text U (lab_of U) f s (inr d) <-> accepts U f s d).
Proof. exact text_accepts. Qed.
Print Assumptions C95_accepts.
Theorem C95_refuses : forall U f s rc, nfc_ok U -> c_string s -> 32 * (zlen s + 1) < two64 -> 0 <= f < 2147483648 -> opt_no_tr46 f = false \/ zlen s <= 1000000000 ->
  (lookup_text U (lab_of U) f s (inl rc) <-> refuses U f s rc).
Proof. exact text_refuses. Qed.
Print Assumptions C95_refuses.
Example C95_whole_case : nfc_ok ucd /\ lookup_text ucd (lab_of ucd) 0 strasse (inr xn_strasse) /\ lookup_text ucd (lab_of ucd) 0 [194;128] (inl IDN2_DISALLOWED) /\
  lookup_text ucd (lab_of ucd) 12 strasse (inl IDN2_INVALID_FLAGS).
Proof. exact case_whole. Qed.
(** The order of evaluation, where C leaves it open, does not matter (as for C92). *)
Theorem C95_order : forallb (fun f => all_sequenced (f_body f)) [c_c_tolower; c_c_strncasecmp; c_set_default_flags; c_tr46_count; c_tr46_write; c_tr46_labels; c_lookup_u8; c_label] = true.
Proof. exact lookup_sequenced. Qed.
Print Assumptions C95_order.
