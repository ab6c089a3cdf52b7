(** C73: how the running time grows with the input.  [c_f] is the function [f]
    of the model, counting loop iterations. *)
From Verif Require Import Base Uenv SpecNfc Puny Idna Lookup Api Register Ucd Cost CostPuny CostLabel CostTop CostQuad CostCases Step StepProofs StepTop.
Local Open Scope Z_scope.

(** Lookup: linear, for any Unicode data in which ZWNJ is not transparent for
    joining and normalisation at most quadruples a string. *)
Theorem C73_lookup : forall U,
  ue_join U 0x200C <> UC_JOINING_TYPE_T ->
  (forall l p, ue_nfc U l = Some p -> zlen p <= 4 * zlen l) ->
  forall src flags,
  outcome (c_lookup_u8 U src flags) = lookup_u8 U src flags /\
  steps (c_lookup_u8 U src flags) <= 3770 * zlen src + 25000000.
Proof. exact lookup_steps. Qed.
Print Assumptions C73_lookup.

(** With the TR46 mapping everything behind the mapping takes constant time. *)
Theorem C73_lookup_tr46 : forall U,
  ue_join U 0x200C <> UC_JOINING_TYPE_T ->
  (forall l p, ue_nfc U l = Some p -> zlen p <= 4 * zlen l) ->
  forall src flags f, set_default_flags flags = Ok f -> has f IDN2_NO_TR46 = false ->
  outcome (c_lookup_u8 U src flags) = lookup_u8 U src flags /\
  steps (c_lookup_u8 U src flags) <= 154 * zlen src + 25000000.
Proof. exact lookup_tr46_steps. Qed.
Print Assumptions C73_lookup_tr46.

(** With the Unicode 14 data there is nothing to assume. *)
Theorem C73_lookup_unicode14 : forall src flags,
  outcome (c_lookup_u8 ucd src flags) = lookup_u8 ucd src flags /\
  steps (c_lookup_u8 ucd src flags) <= 3770 * zlen src + 25000000.
Proof. exact lookup14_steps. Qed.
Print Assumptions C73_lookup_unicode14.

Theorem C73_to_unicode : forall src output flags,
  outcome (c_to_unicode_8z4z (Some src) output flags) = to_unicode_8z4z (Some src) output flags /\
  steps (c_to_unicode_8z4z (Some src) output flags) <= 5 * zlen src + 1204000.
Proof. exact unicode_steps. Qed.
Print Assumptions C73_to_unicode.

(** The Punycode coder with room for [cap] elements of output. *)
Theorem C73_encode : forall L max_out cap, 0 <= cap ->
  outcome (c_puny_encode L max_out cap) = puny_encode L max_out cap /\
  steps (c_puny_encode L max_out cap) <= zlen L + (cap + 1) * (2 * zlen L + 7).
Proof. exact encode_steps. Qed.
Print Assumptions C73_encode.
Theorem C73_decode : forall s max_out cap, 0 <= cap ->
  outcome (c_puny_decode s max_out cap) = puny_decode s max_out cap /\
  steps (c_puny_decode s max_out cap) <= 3 * zlen s + 1 + (cap + 1) * (cap + 6).
Proof. exact decode_steps. Qed.
Print Assumptions C73_decode.

(** Registration: linear in the A-label, whatever U-label comes with it, ... *)
Theorem C73_register_alabel : forall U,
  ue_join U 0x200C <> UC_JOINING_TYPE_T ->
  (forall l p, ue_nfc U l = Some p -> zlen p <= 4 * zlen l) ->
  forall u a output flags,
  outcome (c_register_u8 U u (Some a) output flags) = register_u8 U u (Some a) output flags /\
  steps (c_register_u8 U u (Some a) output flags) <= zlen a + 2500000.
Proof. exact register_alabel_steps. Qed.
Print Assumptions C73_register_alabel.

(** ... at most quadratic in a U-label alone ... *)
Theorem C73_register_ulabel : forall U,
  ue_join U 0x200C <> UC_JOINING_TYPE_T ->
  (forall l p, ue_nfc U l = Some p -> zlen p <= 4 * zlen l) ->
  forall u output flags,
  outcome (c_register_u8 U (Some u) None output flags) = register_u8 U (Some u) None output flags /\
  steps (c_register_u8 U (Some u) None output flags) <= 16 * (zlen u * zlen u) + 1050 * zlen u + 600.
Proof. exact register_ulabel_steps. Qed.
Print Assumptions C73_register_ulabel.

(** ... and no better: a linear bound does not hold. *)
Theorem C73_register_linear_refuted : forall A B output, exists u,
  outcome (c_register_u8 ucd (Some u) None output 0) = register_u8 ucd (Some u) None output 0 /\
  A * zlen u + B < steps (c_register_u8 ucd (Some u) None output 0).
Proof. exact register14_steps. Qed.
Print Assumptions C73_register_linear_refuted.

(** "münchen.de" *)
Example case_C73_lookup : steps (c_lookup_u8 ucd [109;195;188;110;99;104;101;110;46;100;101] 0) = 802.
Proof. exact case_lookup_steps. Qed.
Example case_C73_to_unicode : steps (c_to_unicode_8z4z (Some [120;110;45;45;109;110;99;104;101;110;45;51;121;97;46;100;101]) (Some None) 0) = 65.
Proof. exact case_unicode_steps. Qed.
(** 50 and 100 Arabic-Indic digits. *)
Example case_C73_register :
  steps (c_register_u8 ucd (Some (zeros8 50)) None (Some None) 0) = 4953 /\
  steps (c_register_u8 ucd (Some (zeros8 100)) None (Some None) 0) = 14903.
Proof. exact case_register_steps. Qed.
