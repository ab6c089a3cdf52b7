(** The theorems of PropCost.v. *)
From Verif Require Import Base Uenv SpecNfc Puny Idna Lookup Api Register Ucd Cost CostPuny CostLabel CostTop CostQuad CostCases Step StepProofs.
Local Open Scope Z_scope.

Definition mild (U : uenv) : Prop := ue_join U 0x200C <> UC_JOINING_TYPE_T.
Definition short (U : uenv) : Prop := forall l p, ue_nfc U l = Some p -> zlen p <= 4 * zlen l.
Lemma lookup_steps : forall U, mild U -> short U -> forall src flags,
  outcome (c_lookup_u8 U src flags) = lookup_u8 U src flags /\ steps (c_lookup_u8 U src flags) <= 3770 * zlen src + 25000000.
Proof. intros U H1 H2 src flags. exact (counted _ _ _ _ _ (lookup_run U src flags) (lookup_linear U H1 H2 src flags)). Qed.
Lemma lookup_tr46_steps : forall U, mild U -> short U -> forall src flags f, set_default_flags flags = Ok f -> has f IDN2_NO_TR46 = false ->
  outcome (c_lookup_u8 U src flags) = lookup_u8 U src flags /\ steps (c_lookup_u8 U src flags) <= 154 * zlen src + 25000000.
Proof. intros U H1 H2 src flags f F N. exact (counted _ _ _ _ _ (lookup_run U src flags) (lookup_tr46 U H1 H2 src flags f F N)). Qed.
Lemma lookup14_steps : forall src flags,
  outcome (c_lookup_u8 ucd src flags) = lookup_u8 ucd src flags /\ steps (c_lookup_u8 ucd src flags) <= 3770 * zlen src + 25000000.
Proof. intros src flags. exact (counted _ _ _ _ _ (lookup_run ucd src flags) (lookup14 src flags)). Qed.
Lemma unicode_steps : forall src output flags,
  outcome (c_to_unicode_8z4z (Some src) output flags) = to_unicode_8z4z (Some src) output flags /\
  steps (c_to_unicode_8z4z (Some src) output flags) <= 5 * zlen src + 1204000.
Proof. intros src output flags. apply counted_unicode, unicode_linear. Qed.
Lemma encode_steps : forall L max_out cap, 0 <= cap ->
  outcome (c_puny_encode L max_out cap) = puny_encode L max_out cap /\
  steps (c_puny_encode L max_out cap) <= zlen L + (cap + 1) * (2 * zlen L + 7).
Proof. intros L mo cap H. exact (counted _ _ _ _ _ (encode_run L mo cap) (encode_le L mo cap H)). Qed.
Lemma decode_steps : forall s max_out cap, 0 <= cap ->
  outcome (c_puny_decode s max_out cap) = puny_decode s max_out cap /\
  steps (c_puny_decode s max_out cap) <= 3 * zlen s + 1 + (cap + 1) * (cap + 6).
Proof. intros s mo cap H. exact (counted _ _ _ _ _ (decode_run s mo cap) (decode_le s mo cap H)). Qed.
Lemma register_alabel_steps : forall U, mild U -> short U -> forall u a output flags,
  outcome (c_register_u8 U u (Some a) output flags) = register_u8 U u (Some a) output flags /\
  steps (c_register_u8 U u (Some a) output flags) <= zlen a + 2500000.
Proof. intros U H1 H2 u a c flags. exact (counted _ _ _ _ _ (register_run U u (Some a) c flags) (reg_alabel_le U H1 H2 u a)). Qed.
Lemma register_ulabel_steps : forall U, mild U -> short U -> forall u output flags,
  outcome (c_register_u8 U (Some u) None output flags) = register_u8 U (Some u) None output flags /\
  steps (c_register_u8 U (Some u) None output flags) <= 16 * (zlen u * zlen u) + 1050 * zlen u + 600.
Proof. intros U H1 H2 u c flags. exact (counted _ _ _ _ _ (register_run U (Some u) None c flags) (reg_ulabel_le U H1 H2 u flags)). Qed.
Lemma register14_steps : forall A B output, exists u,
  outcome (c_register_u8 ucd (Some u) None output 0) = register_u8 ucd (Some u) None output 0 /\
  A * zlen u + B < steps (c_register_u8 ucd (Some u) None output 0).
Proof. intros A B c. destruct (register14 A B) as [u H]. exists u. rewrite register_run. split; [reflexivity|exact H]. Qed.

Lemma case_lookup_steps : steps (c_lookup_u8 ucd [109;195;188;110;99;104;101;110;46;100;101] 0) = 802.
Proof. rewrite lookup_run. exact case_lookup. Qed.
Lemma case_unicode_steps : steps (c_to_unicode_8z4z (Some [120;110;45;45;109;110;99;104;101;110;45;51;121;97;46;100;101]) (Some None) 0) = 65.
Proof. unfold c_to_unicode_8z4z, c_deliver. rewrite unicode_run. exact case_unicode. Qed.
Lemma case_register_steps :
  steps (c_register_u8 ucd (Some (zeros8 50)) None (Some None) 0) = 4953 /\
  steps (c_register_u8 ucd (Some (zeros8 100)) None (Some None) 0) = 14903.
Proof. rewrite !register_run. exact case_register. Qed.
