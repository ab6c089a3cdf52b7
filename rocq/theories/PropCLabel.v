(** C93: the C text of the label tests, run by the rules of C11. *)
From Coq Require Import String.
From Verif Require Import Base Uenv Ucd Bidi Context Idna SpecTables SpecBidi SpecContext SpecLabel SpecNfc CLang CLabel SpecCPuny SpecCLabel CLabelTop CLabelCases.
Local Open Scope list_scope.
Local Open Scope Z_scope.

Theorem C93_bidi : forall U l, array32 l -> exists rc, c_returns U c_bidi l [(U64, zlen l)] rc /\ (rc = 0 \/ rc = IDN2_BIDI) /\
  (rc = 0 <-> ~ has_rtl (ue_bidi U) l \/ bidi_rule_implemented (ue_bidi U) l).
Proof. exact c_bidi_spec. Qed.
Print Assumptions C93_bidi.
Example C93_bidi_case : array32 [0x5d0; 0x2d; 0x31] /\
  c_returns ucd c_bidi [0x5d0; 0x2d; 0x31] [(U64, 3)] 0 /\ c_returns ucd c_bidi [0x5d0; 0x2d] [(U64, 2)] IDN2_BIDI /\
  c_returns ucd c_bidi [0x61; 0x5d0] [(U64, 2)] IDN2_BIDI /\ c_returns ucd c_bidi [] [(U64, 0)] 0.
Proof. exact case_bidi. Qed.

Theorem C93_contextj : forall U pre c post, array32 (pre ++ c :: post) ->
  exists rc, c_returns U c_contextj_rule (pre ++ c :: post) [(U64, zlen (pre ++ c :: post)); (U64, zlen pre)] rc /\ (rc = 0 \/ rc = IDN2_CONTEXTJ) /\ (rc = 0 <-> rfc5892_joiner U c pre post).
Proof. exact c_contextj_spec. Qed.
Print Assumptions C93_contextj.
Theorem C93_contexto : forall U pre c post, array32 (pre ++ c :: post) ->
  exists rc, c_returns U c_contexto_rule (pre ++ c :: post) [(U64, zlen (pre ++ c :: post)); (U64, zlen pre)] rc /\ (rc = 0 \/ rc = IDN2_CONTEXTO) /\ (rc = 0 <-> rfc5892_other U c pre post).
Proof. exact c_contexto_spec. Qed.
Print Assumptions C93_contexto.
Example C93_context_case :
  c_returns ucd c_contextj_rule [0x628; 0x64b; 0x200C; 0x64c; 0x627] [(U64, 5); (U64, 2)] 0 /\
  c_returns ucd c_contextj_rule [0x628; 0x64b; 0x200C; 0x61; 0x627] [(U64, 5); (U64, 2)] IDN2_CONTEXTJ /\
  c_returns ucd c_contextj_rule [0x200C] [(U64, 1); (U64, 0)] IDN2_CONTEXTJ /\
  c_returns ucd c_contexto_rule [0x6C; 0xB7; 0x6C] [(U64, 3); (U64, 1)] 0 /\
  c_returns ucd c_contexto_rule [0xB7; 0x6C; 0x6C] [(U64, 3); (U64, 0)] IDN2_CONTEXTO /\
  c_returns ucd c_contexto_rule [0x660; 0x61; 0x6F0] [(U64, 3); (U64, 2)] IDN2_CONTEXTO /\
  c_returns ucd c_contexto_rule [0x30FB; 0x30A2] [(U64, 2); (U64, 0)] 0.
Proof. exact case_context. Qed.
(** The position has to be one of the label. *)
Theorem C93_outside : forall U l pos, l <> [] -> zlen l < two64 -> zlen l <= pos < two64 ->
  c_undefined U c_contextj_rule l [(U64, zlen l); (U64, pos)] /\ c_undefined U c_contexto_rule l [(U64, zlen l); (U64, pos)].
Proof. exact c_outside. Qed.
Print Assumptions C93_outside.

Theorem C93_label_test : forall U what l, array32 l -> nfc_fits U l -> 0 <= what < 2147483648 ->
  (c_returns U c_label_test l [(I32, what); (U64, zlen l)] 0 <-> Forall passes (label_tests_spec U what l)) /\
  (forall rc, rc <> 0 -> (c_returns U c_label_test l [(I32, what); (U64, zlen l)] rc <-> first_failure (label_tests_spec U what l) (Some rc))) /\
  (exists rc, c_returns U c_label_test l [(I32, what); (U64, zlen l)] rc).
Proof. exact c_label_spec. Qed.
Print Assumptions C93_label_test.
Example C93_label_case : array32 [0xE9; 0x6C; 0xB7; 0x6C] /\ nfc_fits ucd [0xE9; 0x6C; 0xB7; 0x6C] /\
  c_returns ucd c_label_test [0xE9; 0x6C; 0xB7; 0x6C] [(I32, 0x3F5F); (U64, 4)] 0 /\
  c_returns ucd c_label_test [0xE9; 0x6C; 0xB7; 0x6C] [(I32, 0x3FFF); (U64, 4)] IDN2_CONTEXTO /\
  c_returns ucd c_label_test [0x65; 0x301] [(I32, 1); (U64, 2)] IDN2_NOT_NFC /\
  c_returns ucd c_label_test [0x61; 0x61; 0x2D; 0x2D] [(I32, 2); (U64, 4)] IDN2_2HYPHEN /\
  c_returns ucd c_label_test [0xDF] [(I32, 0x1000); (U64, 1)] IDN2_INVALID_TRANSITIONAL /\
  c_returns ucd c_label_test [0xDF] [(I32, 0x2000); (U64, 1)] 0 /\
  c_returns ucd c_label_test [] [(I32, 0x3FFF); (U64, 0)] 0.
Proof. exact case_label. Qed.

(** The -1 that _isNFC can return ("maybe") is never returned. *)
Theorem C93_isNFC : forall U l, array32 l -> exists rc, c_returns U c_isNFC l [(U64, zlen l)] rc /\ (rc = 0 \/ rc = 1) /\ (rc = 1 <-> qc_yes (ue_ccc U) 0 (visited false l)).
Proof. exact c_nfc_spec. Qed.
Print Assumptions C93_isNFC.
Example C93_isNFC_case : c_returns ucd c_isNFC [0x65; 0x301] [(U64, 2)] 0 /\ c_returns ucd c_isNFC [0xE9] [(U64, 1)] 1 /\
  c_returns ucd c_isNFC [0x11099; 0x110BA] [(U64, 2)] 1 /\ c_returns ucd c_isNFC [0x61; 0x10FFFF] [(U64, 2)] 1.
Proof. exact case_nfc. Qed.
Theorem C93_ascii : forall U s, Forall (fun b => 0 <= b <= 255) s -> zlen s < two64 ->
  exists rc, bytes_return U c_ascii_p s rc /\ (rc = 0 \/ rc = 1) /\ (rc = 1 <-> Forall (fun b => b < 128) s).
Proof. exact c_ascii_spec. Qed.
Print Assumptions C93_ascii.
Example C93_ascii_case : bytes_return ucd c_ascii_p [97; 127] 1 /\ bytes_return ucd c_ascii_p [97; 128] 0.
Proof. exact case_ascii. Qed.

(** The text does what the functions of Bidi.v, Context.v and Idna.v say, on which the model of the lookup is built. *)
Theorem C93_model : forall U l, array32 l ->
  c_returns U c_bidi l [(U64, zlen l)] (code (bidi U l)) /\
  (forall pos, 0 <= pos < zlen l -> c_returns U c_contextj_rule l [(U64, zlen l); (U64, pos)] (code (contextj_rule U l pos)) /\ c_returns U c_contexto_rule l [(U64, zlen l); (U64, pos)] (code (contexto_rule U l pos))) /\
  (nfc_fits U l -> forall what, 0 <= what < 2147483648 -> c_returns U c_label_test l [(I32, what); (U64, zlen l)] (code (label_test U what l))) /\
  (exists k, isNFC U l = Ok k /\ c_returns U c_isNFC l [(U64, zlen l)] k).
Proof. exact c_model. Qed.
Print Assumptions C93_model.
(** C92_order shows that the order of evaluation then makes no difference. *)
Theorem C93_order : forallb (fun f => all_sequenced (f_body f) && reads_only (f_body f))
  [c_isBidi; c_bidi; c_contextj_rule; c_contexto_rule; c_contexto_with_rule; c_isNFC; c_ascii_p; c_label_test] = true.
Proof. exact label_sequenced. Qed.
Print Assumptions C93_order.
