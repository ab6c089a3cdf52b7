(** C87: the fallback the manual recommends: IDNA 2008, and on IDN2_DISALLOWED
    transitional processing.  [fallback_accepts] and [fallback_refuses] are in
    SpecFallback.v. *)
From Verif Require Import Base PunyBase Uenv DataTypes SpecUtf8 SpecTables SpecBidi SpecLabel SpecNfc SpecLookup SpecToAscii SpecRefusal Lookup Api
  Heap SpecHeap Ucd Fallback SpecFallback FallbackMem FallbackCases FallbackTop HeapCases FallbackHeap.

Theorem C87_exact : forall U, nfc_ok U -> forall s q r, c_string s -> zlen s < two64 ->
  (to_ascii_fallback U (Some s) (Some q) = Ok (IDN2_OK, Some (Some r)) <-> fallback_accepts U s r).
Proof. exact exact_api. Qed.
Print Assumptions C87_exact.
Theorem C87_refusal : forall U, nfc_ok U -> forall s o rc, c_string s -> zlen s < two64 -> rc <> IDN2_OK ->
  (to_ascii_fallback U (Some s) o = Ok (rc, o) <-> fallback_refuses U s rc).
Proof. exact refusal_api. Qed.
Print Assumptions C87_refusal.
(** Looking up a result again. *)
Theorem C87_again : forall U, nfc_ok U -> forall s r l q q', c_string s -> zlen s < two64 -> utf8 l s -> Forall (fun c => status_of c <> Deviation) l ->
  to_ascii_fallback U (Some s) (Some q) = Ok (IDN2_OK, Some (Some r)) -> to_ascii_fallback U (Some r) (Some q') = Ok (IDN2_OK, Some (Some r)).
Proof. exact again_api. Qed.
Print Assumptions C87_again.
Theorem C87_stable : forall U, nfc_ok U -> forall s r q q', c_string s -> zlen s < two64 -> to_ascii_fallback U (Some s) (Some q) = Ok (IDN2_OK, Some (Some r)) ->
  exists rc c, to_ascii_fallback U (Some r) (Some q') = Ok (rc, Some c) /\ (rc = IDN2_OK /\ c = Some r \/ rc <> IDN2_OK /\ rc <> IDN2_DISALLOWED /\ c = q').
Proof. exact stable_api. Qed.
Print Assumptions C87_stable.
(** Without deviation characters the first attempt is not needed. *)
Theorem C87_transitional : forall U, nfc_ok U -> forall s r l n q q', c_string s -> zlen s < two64 -> utf8 l s -> Forall (fun c => status_of c <> Deviation) l ->
  ue_nfc U (uts46_map false false l) = Some n -> Forall (fun c => status_of c <> Deviation) n ->
  to_ascii_fallback U (Some s) (Some q) = Ok (IDN2_OK, Some (Some r)) -> to_ascii_8z U (Some s) (Some q') IDN2_TRANSITIONAL = Ok (IDN2_OK, Some (Some r)).
Proof. exact transitional_api. Qed.
Print Assumptions C87_transitional.
(** The first attempt leaves nothing behind. *)
Theorem C87_memory : forall E U, nfc_ok U -> forall junk s, keeps_errno E -> c_string s -> zlen s < two64 ->
  frugal E (m_to_ascii_fallback E U junk (Some (Caller s))) (to_ascii_fallback U (Some s)).
Proof. exact fallback_frugal. Qed.
Print Assumptions C87_memory.
Theorem C87_tidy : forall E U, nfc_ok U -> forall junk s, c_string s -> zlen s < two64 -> tidy (m_to_ascii_fallback E U junk (Some (Caller s))).
Proof. exact fallback_tidy. Qed.
Print Assumptions C87_tidy.
(** The name is not converted label by label: a label is converted differently
    beside a disallowed one. *)
Theorem C87_compose_refuted : exists a b ra rb r, c_string a /\ c_string b /\
  to_ascii_fallback ucd (Some a) (Some None) = Ok (IDN2_OK, Some (Some ra)) /\ to_ascii_fallback ucd (Some b) (Some None) = Ok (IDN2_OK, Some (Some rb)) /\
  to_ascii_fallback ucd (Some (a ++ 46 :: b)) (Some None) = Ok (IDN2_OK, Some (Some r)) /\ r <> ra ++ 46 :: rb.
Proof. exact compose_fails. Qed.
Print Assumptions C87_compose_refuted.
(** A disallowed character lifts the other rules too, from its own label and from
    the labels after it, not from those before it. *)
Theorem C87_order_refuted : exists a b r, c_string a /\ c_string b /\
  to_ascii_fallback ucd (Some (a ++ 46 :: b)) (Some None) = Ok (IDN2_OK, Some (Some r)) /\
  to_ascii_fallback ucd (Some (b ++ 46 :: a)) (Some None) = Ok (IDN2_BIDI, Some None) /\ to_ascii_fallback ucd (Some b) (Some None) = Ok (IDN2_BIDI, Some None).
Proof. exact order_matters. Qed.
Print Assumptions C87_order_refuted.
Theorem C87_bidi_refuted : exists s r, c_string s /\ ~ In 46 s /\ to_ascii_fallback ucd (Some s) (Some None) = Ok (IDN2_OK, Some (Some r)) /\
  forall l, utf8 l s -> ~ ok_bidi ucd l.
Proof. exact one_label. Qed.
Print Assumptions C87_bidi_refuted.
(** A cup (U+2615): accepted the second time. *)
Example C87_case : nfc_ok ucd /\ c_string coffee /\ zlen coffee < two64 /\ utf8 [0x2615] coffee /\ Forall (fun c => status_of c <> Deviation) [0x2615] /\
  ue_nfc ucd (uts46_map false false [0x2615]) = Some [0x2615] /\ second_chance ucd coffee /\ fallback_accepts ucd coffee ace_coffee /\
  to_ascii_fallback ucd (Some coffee) (Some None) = Ok (IDN2_OK, Some (Some ace_coffee)) /\ lookup_u8 ucd coffee IDN2_TRANSITIONAL = Ok ace_coffee /\
  to_ascii_fallback ucd (Some ace_coffee) (Some None) = Ok (IDN2_OK, Some (Some ace_coffee)) /\
  fallback_refuses ucd alef_a IDN2_BIDI /\ to_ascii_fallback ucd (Some alef_a) (Some None) = Ok (IDN2_BIDI, Some None).
Proof. exact both_ways. Qed.
Example C87_memory_case : heap_ok start /\ keeps_errno generous /\ keeps_errno (fails_at 16) /\
  (exists n h', m_to_ascii_fallback generous ucd None (Some (Caller coffee)) (Some None) start = Ok (IDN2_OK, Some (Some n), h') /\ live h' = (n, ace_coffee) :: live start /\ (20 < calls h')%nat) /\
  (exists h', m_to_ascii_fallback (fails_at 16) ucd None (Some (Caller coffee)) (Some None) start = Ok (IDN2_MALLOC, Some None, h') /\ live h' = live start).
Proof. exact heap_case. Qed.
