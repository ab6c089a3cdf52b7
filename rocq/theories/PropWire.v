(** Property C76: results of lookup as names in DNS messages (SpecWire.v). *)
From Verif Require Import Base Uenv SpecNfc SpecLookup SpecWire Lookup Ucd LookupExamples Wire.

Theorem C76_wire : forall U src f r, nfc_ok U -> c_string src -> zlen src < two64 -> lookup_u8 U src f = Ok r -> no_gap r -> exists w, on_wire r w.
Proof. exact lookup_wire. Qed.
Print Assumptions C76_wire.
Theorem C76_unique : forall s v w, on_wire s v -> on_wire s w -> v = w.
Proof. exact on_wire_fun. Qed.
Print Assumptions C76_unique.
(** The limits are those of the protocol: nothing that can be sent is refused for its length. *)
Theorem C76_exact : forall U s f, nfc_ok U -> ascii_string s -> zlen s < two64 -> opt_no_tr46 f = true -> ~ bad_flags f ->
  (opt_no_roundtrip f = false -> forall ls l, dotted ls s -> In l ls -> ~ xn l) -> no_gap s ->
  (lookup_u8 U s f = Ok s <-> exists w, on_wire s w).
Proof. exact ascii_wire. Qed.
Print Assumptions C76_exact.
(** Different results are different names, also for servers that ignore case. *)
Theorem C76_distinct : forall U V a b f g r s v w, nfc_ok U -> nfc_ok V -> c_string a -> zlen a < two64 -> c_string b -> zlen b < two64 ->
  opt_no_roundtrip f = false -> opt_no_tr46 f = false -> opt_no_roundtrip g = false -> opt_no_tr46 g = false ->
  lookup_u8 U a f = Ok r -> lookup_u8 V b g = Ok s -> on_wire r v -> on_wire s w -> same_owner v w -> same_but_final_dot r s.
Proof. exact results_distinct. Qed.
Print Assumptions C76_distinct.
(** Without TR46 they need not be. *)
Theorem C76_distinct_refuted : exists r s v w, lookup_u8 ucd [65] IDN2_NO_TR46 = Ok r /\ lookup_u8 ucd [97] IDN2_NO_TR46 = Ok s /\
  on_wire r v /\ on_wire s w /\ same_owner v w /\ ~ same_but_final_dot r s.
Proof. exact raw_case. Qed.
Print Assumptions C76_distinct_refuted.
(** "a..b" is accepted, and cannot be sent. *)
Theorem C76_wire_refuted : lookup_u8 ucd [97; 46; 46; 98] 0 = Ok [97; 46; 46; 98] /\ forall w, ~ on_wire [97; 46; 46; 98] w.
Proof. exact two_dots. Qed.
Print Assumptions C76_wire_refuted.
Example C76_case : nfc_ok ucd /\ c_string buecher /\ lookup_u8 ucd buecher 0 = Ok xn_buecher /\ no_gap xn_buecher /\
  on_wire xn_buecher wire_buecher /\ on_wire (xn_buecher ++ [46]) wire_buecher.
Proof. exact case_wire. Qed.
