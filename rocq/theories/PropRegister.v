(** Properties C28-C32, C55: registration. *)
From Verif Require Import Base Uenv DataTypes SpecUtf8 SpecPuny SpecLabel SpecNfc SpecLookup SpecRegister Lookup Api Register RegisterTop Ucd ApiExamples.

(** C28. *)
Theorem C28_sound : forall U u f q a, nfc_ok U -> (opt_nfc f = true -> nfc_no_ldh U) -> c_string u ->
  register_u8 U (Some u) None (Some q) f = Ok (IDN2_OK, Some (Some a)) ->
  (ascii_string u /\ zlen u <= 63 /\ a = u) \/
  (~ ascii_string u /\ exists l m, utf8 l u /\ reg_normal U f l m /\ registrable U m /\ a_label m a).
Proof. exact register_sound. Qed.
Print Assumptions C28_sound.
Theorem C28_shape : forall U u f q a, nfc_ok U -> (opt_nfc f = true -> nfc_no_ldh U) -> c_string u ->
  register_u8 U (Some u) None (Some q) f = Ok (IDN2_OK, Some (Some a)) -> ascii_string a /\ zlen a <= 63.
Proof. exact register_shape. Qed.
Print Assumptions C28_shape.
Theorem C28_complete : forall U u f q l m a, nfc_ok U -> c_string u -> ~ ascii_string u -> utf8 l u -> reg_normal U f l m ->
  (opt_nfc f = true -> l = m \/ (qc_sound U /\ Forall (fun c => ~ supplementary c) l)) ->
  registrable U m -> a_label m a -> register_u8 U (Some u) None (Some q) f = Ok (IDN2_OK, Some (Some a)).
Proof. exact register_complete. Qed.
Print Assumptions C28_complete.
(** With code points beyond U+FFFF the request to normalise is not always honoured. *)
Theorem C28_normalises_refuted : exists u l m a, nfc_ok ucd /\ qc_sound ucd /\ c_string u /\ utf8 l u /\ ue_nfc ucd l = Some m /\ registrable ucd m /\ a_label m a /\
  register_u8 ucd (Some u) None (Some None) IDN2_NFC_INPUT = Ok (IDN2_NOT_NFC, Some None).
Proof. exact register_supplementary. Qed.
Print Assumptions C28_normalises_refuted.
Example C28_case : nfc_ok ucd /\ nfc_no_ldh ucd /\ qc_sound ucd /\ c_string ue8 /\ ~ ascii_string ue8 /\ utf8 ue4 ue8 /\ registrable ucd ue4 /\ a_label ue4 xn_ue /\
  register_u8 ucd (Some ue8) None (Some None) IDN2_NFC_INPUT = Ok (IDN2_OK, Some (Some xn_ue)) /\
  register_u8 ucd (Some [101;204;129]) None (Some None) IDN2_NFC_INPUT = Ok (IDN2_OK, Some (Some [120;110;45;45;57;99;97])) /\
  register_u8 ucd (Some [101;204;129]) None (Some None) 0 = Ok (IDN2_NOT_NFC, Some None).
Proof. exact case_register. Qed.

(** C29. *)
Theorem C29_alabel : forall U u a q f r, nfc_ok U -> c_string a ->
  (register_u8 U u (Some a) (Some q) f = Ok (IDN2_OK, Some (Some r)) <->
   r = a /\ exists l, a_label l a /\ registrable U l /\ (forall x, u = Some x -> utf8 l x)).
Proof. exact register_alabel. Qed.
Print Assumptions C29_alabel.
Theorem C29_mismatch : forall U x a l o f, a_label l a -> ~ utf8 l x -> register_u8 U (Some x) (Some a) o f = Ok (IDN2_UALABEL_MISMATCH, o).
Proof. exact register_mismatch. Qed.
Print Assumptions C29_mismatch.
Theorem C29_not_alabel : forall U u a q f, nfc_ok U -> c_string a -> (forall l, ~ a_label l a) ->
  exists rc, register_u8 U u (Some a) (Some q) f = Ok (rc, Some q) /\ rc <> IDN2_OK.
Proof. exact register_not_alabel. Qed.
Print Assumptions C29_not_alabel.
Example C29_case : nfc_ok ucd /\ c_string xn_ue /\ a_label ue4 xn_ue /\ ~ utf8 ue4 [98] /\
  register_u8 ucd None (Some xn_ue) (Some None) 0 = Ok (IDN2_OK, Some (Some xn_ue)) /\
  register_u8 ucd (Some [98]) (Some xn_ue) (Some None) 0 = Ok (IDN2_UALABEL_MISMATCH, Some None) /\
  register_u8 ucd None (Some [120;110;45;45;66;45;53;45;104;111;97]) (Some None) 0 = Ok (IDN2_DISALLOWED, Some None).
Proof. exact case_alabel. Qed.

(** C30. *)
Theorem C30_round_trip : forall U u f q a, nfc_ok U -> (opt_nfc f = true -> nfc_no_ldh U) -> c_string u -> ~ ascii_string u ->
  register_u8 U (Some u) None (Some q) f = Ok (IDN2_OK, Some (Some a)) ->
  exists l m v, utf8 l u /\ reg_normal U f l m /\ utf8 m v /\ forall q' f',
    register_u8 U None (Some a) (Some q') f' = Ok (IDN2_OK, Some (Some a)) /\
    register_u8 U (Some v) (Some a) (Some q') f' = Ok (IDN2_OK, Some (Some a)) /\
    register_u8 U (Some v) None (Some q') f' = Ok (IDN2_OK, Some (Some a)).
Proof. exact register_round_trip. Qed.
Print Assumptions C30_round_trip.
Example C30_case : ~ ascii_string ue8 /\ register_u8 ucd (Some ue8) (Some xn_ue) (Some None) 0 = Ok (IDN2_OK, Some (Some xn_ue)).
Proof. split; [exact ue_na|vm_compute; reflexivity]. Qed.

(** C31. *)
Theorem C31_ascii : forall U u f q, ascii_string u -> register_u8 U (Some u) None (Some q) f =
  if zlen u <=? 63 then Ok (IDN2_OK, Some (Some u)) else Ok (IDN2_TOO_BIG_LABEL, Some q).
Proof. exact register_ascii. Qed.
Print Assumptions C31_ascii.
Example C31_case : ascii_string [97;98;45;45;99;100] /\ ascii_string [45] /\ ascii_string [65;95] /\
  register_u8 ucd (Some [97;98;45;45;99;100]) None (Some None) 0 = Ok (IDN2_OK, Some (Some [97;98;45;45;99;100])) /\
  register_u8 ucd (Some [45]) None (Some None) 0 = Ok (IDN2_OK, Some (Some [45])) /\
  register_u8 ucd (Some [65;95]) None (Some None) 0 = Ok (IDN2_OK, Some (Some [65;95])) /\
  register_u8 ucd (Some (repeat 97 64)) None (Some None) 0 = Ok (IDN2_TOO_BIG_LABEL, Some None).
Proof. exact case_ascii. Qed.

(** C32. *)
Theorem C32_codes : forall U u a o f, nfc_ok U -> (forall s, u = Some s -> c_string s) -> (forall s, a = Some s -> c_string s) ->
  match register_u8 U u a o f with
  | Ok (rc, o') => (rc = IDN2_OK /\ forall r, o' = Some (Some r) -> o <> None -> zlen r <= 63) \/ (In rc register_errors /\ o' = o)
  | _ => False
  end.
Proof. exact register_codes. Qed.
Print Assumptions C32_codes.
Theorem C32_locale : forall U L u a o f,
  register_ul U L u a o f =
  match u with
  | None => register_u8 U None a o (Z.lor f IDN2_NFC_INPUT)
  | Some x => match from_locale L x with
              | Some s => register_u8 U (Some s) a o (Z.lor f IDN2_NFC_INPUT)
              | None => Ok (IDN2_ICONV_FAIL, o)
              end
  end.
Proof. exact register_locale. Qed.
Print Assumptions C32_locale.
Theorem C32_pointers : forall U L R, In R (reg_functions U L) ->
  (forall o f, R None None o f = Ok (IDN2_OK, match o with None => None | Some _ => Some None end)) /\
  (forall u a p f rc c, R u a (Some p) f = Ok (rc, c) -> R u a None f = Ok (rc, None)) /\
  (forall u a p f rc c p', R u a (Some p) f = Ok (rc, c) -> exists c', R u a (Some p') f = Ok (rc, c') /\ (c' = c \/ (c = Some p /\ c' = Some p'))).
Proof. exact register_pointers. Qed.
Print Assumptions C32_pointers.
Theorem C32_untouched : forall U L R, In R (reg_functions U L) -> forall u a o f rc o', R u a o f = Ok (rc, o') -> rc <> IDN2_OK -> o' = o.
Proof. exact register_untouched. Qed.
Print Assumptions C32_untouched.
Example C32_case : register_ul ucd latin1 (Some ue4) None (Some None) 0 = Ok (IDN2_OK, Some (Some xn_ue)) /\
  register_ul ucd latin1 (Some [0x110000]) None (Some (Some [1])) 0 = Ok (IDN2_ICONV_FAIL, Some (Some [1])).
Proof. vm_compute. auto. Qed.

(** C55. *)
Theorem C55_lookup : forall U f us rs src r q, nfc_ok U -> Forall2 (reg_pair U) us rs -> dotted us src -> dotted rs r ->
  zlen r <= 253 \/ (zlen r = 254 /\ last rs [] = []) -> ~ bad_flags f -> opt_no_tr46 f = true \/ opt_transitional f = false ->
  idn2_lookup_u8 U (Some src) (Some q) f = Ok (IDN2_OK, Some (Some r)).
Proof. exact registered_lookup. Qed.
Print Assumptions C55_lookup.
Theorem C55_registered : forall U u a q f, nfc_ok U -> c_string a -> register_u8 U (Some u) (Some a) (Some q) f = Ok (IDN2_OK, Some (Some a)) -> reg_pair U u a.
Proof. exact registered_pair. Qed.
Print Assumptions C55_registered.
(** Transitional processing looks up another name. *)
Theorem C55_transitional_refuted : exists u a r, nfc_ok ucd /\ reg_pair ucd u a /\ lookup_u8 ucd u IDN2_TRANSITIONAL = Ok r /\ r <> a.
Proof. exact transitional_lookup. Qed.
Print Assumptions C55_transitional_refuted.
Example C55_case : Forall2 (reg_pair ucd) [ue8; [101;120]] [xn_ue; [101;120]] /\ dotted [ue8; [101;120]] (ue8 ++ [46;101;120]) /\
  dotted [xn_ue; [101;120]] (xn_ue ++ [46;101;120]) /\ lookup_u8 ucd (ue8 ++ [46;101;120]) 0 = Ok (xn_ue ++ [46;101;120]).
Proof. exact case_lookup. Qed.
