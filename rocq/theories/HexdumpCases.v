(** Concrete cases for the debug output. *)
From Coq Require Import String.
From Verif Require Import Base Uenv SpecNfc SpecUtf8 SpecLookup Lookup Api Scan GenText Ucd UcdProofs Cli SpecCli CliProofs CliTop Hexdump SpecHexdump.
Local Open Scope list_scope.
Local Open Scope Z_scope.

Definition u_dots : list Z := flat_map (fun l => text l ++ [10])
  ["input[0] = 0xfc"; "UTF-8 input[0] = 0xc3"; "UTF-8 input[1] = 0xbc"; "UCS-4 input[0] = U+00fc";
   "output[0] = 0xfc"; "UTF-8 output[0] = 0xc3"; "UTF-8 output[1] = 0xbc"; "UCS-4 output[0] = U+00fc"]%string.
Lemma case_debug : nfc_ok ucd /\ locale_ok latin1_guarded /\ nothing_from_nothing latin1_guarded /\ Forall bytes (inputs debugging) /\
  main (here []) (Some debugging) = Ok ([Charset; Hexdump Dinput [252]; Hexdump Doutput [252]; Stdout [120;110;45;45;116;100;97;10]], 0) /\
  dumped latin1_guarded [Charset; Hexdump Dinput [252]; Hexdump Doutput [252]; Stdout [120;110;45;45;116;100;97;10]] = u_dots.
Proof.
  split; [exact ucd_nfc_ok|]. split; [exact latin1_ok|]. split; [intros u H; injection H as <-; reflexivity|].
  split; [repeat constructor; discriminate|]. split; vm_compute; reflexivity.
Qed.
(** A conversion that fails leaves the bytes only. *)
Lemma case_bytes : from_locale (Locale (fun _ => None) (fun _ => None)) [255; 97] = None /\
  hexdump (Locale (fun _ => None) (fun _ => None)) (text "input") [255; 97] = flat_map (fun l => text l ++ [10]) ["input[0] = 0xff"; "input[1] = 0x61"]%string.
Proof. split; vm_compute; reflexivity. Qed.
(** An empty name leaves no trace: it is why the names read back are the others. *)
Lemma empty_silent : exists w a a' ev ev' st st', nfc_ok (w_uenv w) /\ locale_ok (w_locale w) /\ nothing_from_nothing (w_locale w) /\
  debug_given a = true /\ debug_given a' = true /\ inputs a = [[]; [97]] /\ inputs a' = [[97]] /\
  main w (Some a) = Ok (ev, st) /\ main w (Some a') = Ok (ev', st') /\ dumped (w_locale w) ev = dumped (w_locale w) ev' /\ logged ev <> logged ev'.
Proof.
  exists (here []), (with_inputs debugging [[]; [97]]), (with_inputs debugging [[97]]). do 4 eexists.
  split; [exact ucd_nfc_ok|]. split; [exact latin1_ok|]. split; [intros u H; injection H as <-; reflexivity|].
  do 4 (split; [reflexivity|]). split; [vm_compute; reflexivity|]. split; [vm_compute; reflexivity|]. split; [vm_compute; reflexivity|].
  vm_compute. discriminate.
Qed.
