(** C89: what --debug prints. *)
From Coq Require Import String.
From Verif Require Import Base Uenv SpecNfc SpecUtf8 SpecLookup Lookup Api Scan Ucd Cli SpecCli CliTop Hexdump SpecHexdump HexdumpProofs HexdumpTop HexdumpCases.
Local Open Scope list_scope.
Local Open Scope Z_scope.

Theorem C89_text : forall L prefix s, locale_ok L -> c_string s -> dump_of L prefix s (hexdump L prefix s).
Proof. exact dump_text. Qed.
Print Assumptions C89_text.

Theorem C89_run : forall w a ev st, nfc_ok (w_uenv w) -> locale_ok (w_locale w) -> Forall bytes (inputs a) -> bytes (w_stdin w) ->
  version_given a = false -> help_given a = false -> debug_given a = true -> main w (Some a) = Ok (ev, st) ->
  exists f given, wanted a f /\ ((inputs a <> [] /\ given = inputs a) \/ (inputs a = [] /\ lines (w_stdin w) given)) /\
    trace w a f given (logged ev) /\ dumps_of (w_locale w) (logged ev) (dumped (w_locale w) ev).
Proof. exact debug_run. Qed.
Print Assumptions C89_run.

Theorem C89_read_back : forall w a ev st w' a' ev' st', nfc_ok (w_uenv w) -> nfc_ok (w_uenv w') -> locale_ok (w_locale w) -> nothing_from_nothing (w_locale w) ->
  w_locale w = w_locale w' -> Forall bytes (inputs a) -> bytes (w_stdin w) -> Forall bytes (inputs a') -> bytes (w_stdin w') ->
  version_given a = false -> help_given a = false -> debug_given a = true -> version_given a' = false -> help_given a' = false -> debug_given a' = true ->
  main w (Some a) = Ok (ev, st) -> main w' (Some a') = Ok (ev', st') ->
  dumped (w_locale w) ev = dumped (w_locale w') ev' -> shown ev = shown ev'.
Proof. exact debug_back. Qed.
Print Assumptions C89_read_back.

Theorem C89_off : forall w a ev st, debug_given a = false -> main w (Some a) = Ok (ev, st) -> dumped (w_locale w) ev = [].
Proof. exact debug_off. Qed.
Print Assumptions C89_off.

Theorem C89_empty_refuted : exists w a a' ev ev' st st', nfc_ok (w_uenv w) /\ locale_ok (w_locale w) /\ nothing_from_nothing (w_locale w) /\
  debug_given a = true /\ debug_given a' = true /\ inputs a = [[]; [97]] /\ inputs a' = [[97]] /\
  main w (Some a) = Ok (ev, st) /\ main w (Some a') = Ok (ev', st') /\ dumped (w_locale w) ev = dumped (w_locale w) ev' /\ logged ev <> logged ev'.
Proof. exact empty_silent. Qed.
Print Assumptions C89_empty_refuted.

Example C89_case : nfc_ok ucd /\ locale_ok latin1_guarded /\ nothing_from_nothing latin1_guarded /\ Forall bytes (inputs debugging) /\
  main (here []) (Some debugging) = Ok ([Charset; Hexdump Dinput [252]; Hexdump Doutput [252]; Stdout [120;110;45;45;116;100;97;10]], 0) /\
  dumped latin1_guarded [Charset; Hexdump Dinput [252]; Hexdump Doutput [252]; Stdout [120;110;45;45;116;100;97;10]] = u_dots.
Proof. exact case_debug. Qed.
Example C89_bytes_case : from_locale (Locale (fun _ => None) (fun _ => None)) [255; 97] = None /\
  hexdump (Locale (fun _ => None) (fun _ => None)) (text "input") [255; 97] = flat_map (fun l => text l ++ [10]) ["input[0] = 0xff"; "input[1] = 0x61"]%string.
Proof. exact case_bytes. Qed.
