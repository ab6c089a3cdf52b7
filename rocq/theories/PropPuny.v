(** Properties C01-C06, C51 and C53: Punycode. *)
From Verif Require Import Base Puny SpecPuny PunyTop PunyComplete.

(** C01.  Buffers are lists with an explicit capacity; [mo]/[mo2] are the
    claimed, [cap]/[cap2] the real buffer sizes. *)
Theorem C01_encode_decode : forall L mo cap s mo2 cap2,
  u32_list L -> 0 <= mo < two64 -> mo <= cap ->
  puny_encode L mo cap = Ok s ->
  Forall (fun c => c < 128 -> ldh_or_underscore c) L -> Exists (fun c => 128 <= c) L ->
  zlen L <= mo2 -> mo2 <= cap2 ->
  puny_decode s mo2 cap2 = Ok L \/
  (110 < zlen L /\ puny_decode s mo2 cap2 = Fail IDN2_PUNYCODE_OVERFLOW).
Proof. exact encode_decode. Qed.
Print Assumptions C01_encode_decode.

Definition muenchen : list Z := [109;252;110;99;104;101;110].
Example C01_case : exists s, puny_encode muenchen 59 59 = Ok s /\
  u32_list muenchen /\ Forall (fun c => c < 128 -> ldh_or_underscore c) muenchen /\
  Exists (fun c => 128 <= c) muenchen.
Proof.
  eexists. split; [vm_compute; reflexivity|]. unfold muenchen, u32_list, ldh_or_underscore.
  repeat split; [repeat constructor; lia|repeat constructor; lia|].
  apply Exists_cons_tl, Exists_cons_hd. lia.
Qed.

(** C02. *)
Theorem C02_decode_encode : forall s mo cap L emo ecap,
  0 <= mo < 4294967295 -> mo <= cap -> zlen s < two64 ->
  puny_decode s mo cap = Ok L ->
  zlen s <= emo -> emo < two64 -> emo <= ecap ->
  puny_encode L emo ecap = Ok (canon s).
Proof. exact decode_encode. Qed.
Print Assumptions C02_decode_encode.

Theorem C02_decode_injective : forall s1 s2 mo1 mo2 cap1 cap2 L,
  0 <= mo1 < 4294967295 -> mo1 <= cap1 -> 0 <= mo2 < 4294967295 -> mo2 <= cap2 ->
  zlen s1 < two64 -> zlen s2 < two64 ->
  puny_decode s1 mo1 cap1 = Ok L -> puny_decode s2 mo2 cap2 = Ok L ->
  canon s1 = canon s2.
Proof. exact decode_injective. Qed.
Print Assumptions C02_decode_injective.

(** "Mnchen-3yA" and "Mnchen-3y_" both decode to "München"; the canonical form
    keeps the upper-case basic letter. *)
Example C02_case :
  puny_decode [77;110;99;104;101;110;45;51;121;65] 63 63 = Ok [77;252;110;99;104;101;110] /\
  puny_decode [77;110;99;104;101;110;45;51;121;95] 63 63 = Ok [77;252;110;99;104;101;110] /\
  canon [77;110;99;104;101;110;45;51;121;95] = [77;110;99;104;101;110;45;51;121;97].
Proof. vm_compute. auto. Qed.

(** C03: safety is part of [C06_encode_shape]; spelled out here. *)
Theorem C03_encode_safe : forall L mo cap,
  u32_list L -> 0 <= mo < two64 -> mo <= cap ->
  safe (puny_encode L mo cap) /\
  (forall s, puny_encode L mo cap = Ok s -> zlen s <= mo).
Proof. exact encode_safe. Qed.
Print Assumptions C03_encode_safe.
Example C03_case : puny_encode muenchen 10 10 = Ok [109;110;99;104;101;110;45;51;121;97] /\
  puny_encode muenchen 9 9 = Fail IDN2_PUNYCODE_BIG_OUTPUT.
Proof. vm_compute. auto. Qed.

(** C04, C05. *)
Theorem C04_C05_decode_safe : forall s mo cap,
  0 <= mo < 4294967295 -> mo <= cap -> zlen s < two64 ->
  match puny_decode s mo cap with
  | Ok L => zlen L <= mo /\ zlen L <= zlen s /\ L <> [] /\
            Forall permitted L /\ Forall (fun c => c < 128 -> ldh_or_underscore c) L /\
            Exists (fun c => 128 <= c) L
  | Fail rc => rc = IDN2_PUNYCODE_BAD_INPUT \/ rc = IDN2_PUNYCODE_OVERFLOW \/ rc = IDN2_PUNYCODE_BIG_OUTPUT
  | Undef => False
  | NoFuel => False
  end.
Proof. exact decode_safe. Qed.
Print Assumptions C04_C05_decode_safe.
Example C04_case : puny_decode [109;110;99;104;101;110;45;51;121;97] 7 7 = Ok muenchen /\
  puny_decode [109;110;99;104;101;110;45;51;121;97] 6 6 = Fail IDN2_PUNYCODE_BIG_OUTPUT.
Proof. vm_compute. auto. Qed.

(** The bound on the claimed size is sharp: with a claimed (and real) size of
    2^32-1 entries there is an input on which the decoder divides by zero. *)
Theorem C04_decode_large_buffer_refuted :
  exists s, zlen s = 4294967296 /\ puny_decode s 4294967295 4294967295 = Undef.
Proof. exact decode_undef. Qed.
Print Assumptions C04_decode_large_buffer_refuted.

(** C06. *)
Theorem C06_encode_shape : forall L mo cap, u32_list L -> 0 <= mo < two64 -> mo <= cap ->
  match puny_encode L mo cap with
  | Ok s => zlen s <= mo /\ Forall permitted L /\
      exists ds, Forall lower_or_digit ds /\
        s = ascii_part L ++ (if zlen (ascii_part L) =? 0 then [] else [45]) ++ ds
  | Fail rc => rc = IDN2_PUNYCODE_BIG_OUTPUT \/ (rc = IDN2_PUNYCODE_OVERFLOW /\ 3800 < zlen L) \/
               (rc = IDN2_PUNYCODE_BAD_INPUT /\ ~ Forall permitted L)
  | Undef => False
  | NoFuel => False
  end.
Proof. exact encode_shape. Qed.
Print Assumptions C06_encode_shape.
Example C06_case : puny_encode [97; 55296; 98] 63 63 = Fail IDN2_PUNYCODE_BAD_INPUT /\
  ascii_part muenchen = [109;110;99;104;101;110].
Proof. vm_compute. auto. Qed.

(** C51. *)
Theorem C51_decode_rfc3492 : forall s mo cap L,
  0 <= mo < 4294967295 -> mo <= cap -> zlen s < two64 ->
  (forall a t, s = a ++ 95 :: t -> In 45 t) ->
  puny_decode s mo cap = Ok L -> rfc_decodes s L.
Proof. exact decode_rfc. Qed.
Print Assumptions C51_decode_rfc3492.
Example C51_case : (forall a t, [95;45;101;104;97] = a ++ 95 :: t -> In 45 t) /\
  puny_decode [95;45;101;104;97] 63 63 = Ok [95;252].
Proof.
  split; [|vm_compute; reflexivity]. intros [|a1 [|a2 [|a3 [|a4 [|a5 a]]]]] t E; try discriminate E.
  - injection E as <-. cbn. auto.
  - destruct a; discriminate E.
Qed.

(** C53: what the decoder accepts, and what it computes. *)
Theorem C53_decode_exact : forall s mo cap L, 0 <= mo <= 109 -> mo <= cap -> zlen s < two64 ->
  (puny_decode s mo cap = Ok L <->
   Forall ldh_or_underscore s /\ rfc_decodes (canon s) L /\ Forall permitted L /\ Exists (fun c => 128 <= c) L /\ zlen L <= mo).
Proof. exact decode_iff. Qed.
Print Assumptions C53_decode_exact.
Example C53_case : puny_decode [77;110;99;104;101;110;45;51;121;65] 63 63 = Ok [77;252;110;99;104;101;110] /\
  puny_decode [77;110;99;104;101;110;45;51;121] 63 63 = Fail IDN2_PUNYCODE_BAD_INPUT.
Proof. vm_compute. auto. Qed.
