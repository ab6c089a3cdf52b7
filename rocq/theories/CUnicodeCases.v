(** decode.c: the cases beside the theorems of PropCUnicode.v. *)
From Coq Require Import String.
From Verif Require Import Base SpecUtf8 SpecLookup SpecUnicode SpecUniRefusal Api CLang CUnicode SpecCPuny SpecCUnicode CUnicodeTop.
Local Open Scope string_scope.
Local Open Scope list_scope.
Local Open Scope Z_scope.

(** "Xn--bcher-kva.ü." in UTF-8, and what it says. *)
Definition buecher : list Z := [88; 110; 45; 45; 98; 99; 104; 101; 114; 45; 107; 118; 97; 46; 195; 188; 46].
Definition buecher_u : list Z := [98; 252; 99; 104; 101; 114; 46; 252; 46].
Lemma case_ok : forall ch, char_type ch -> c_string buecher /\ unicode_text ch buecher (inr buecher_u) /\ unicode_text ch [] (inr []).
Proof.
  intros ch CH. assert (CS : c_string buecher) by (repeat constructor; lia). split; [exact CS|]. split.
  - pose proof (text_model ch buecher CH CS eq_refl) as T. replace (unicode buecher) with (Ok buecher_u) in T by (vm_compute; reflexivity). exact T.
  - pose proof (text_model ch [] CH (Forall_nil _) eq_refl) as T. replace (unicode []) with (@Ok (list Z) []) in T by (vm_compute; reflexivity). exact T.
Qed.
Lemma case_code : forall ch, char_type ch -> unicode_text ch [97; 46; 255] (inl IDN2_ENCODING_ERROR) /\ unicode_text ch (repeat 97 64) (inl IDN2_TOO_BIG_LABEL) /\
  unicode_text ch [120; 110; 45; 45; 43] (inl IDN2_PUNYCODE_BAD_INPUT) /\ unicode_text ch (repeat 46 256) (inl IDN2_TOO_BIG_DOMAIN) /\ unicode_text ch (repeat 46 255) (inr (repeat 46 255)).
Proof.
  intros ch CH.
  assert (G : forall s rc, forallb (fun b => (0 <? b) && (b <=? 255)) s = true -> zlen s < 4611686018427387904 -> unicode s = Fail rc -> unicode_text ch s (inl rc)).
  { intros s rc B L E. assert (CS : c_string s). { apply Forall_forall. intros b I. apply (proj1 (forallb_forall _ _) B) in I. lia. } pose proof (text_model ch s CH CS L) as T. rewrite E in T. exact T. }
  do 4 (split; [apply G; vm_compute; reflexivity|]). assert (CS : c_string (repeat 46 255)). { apply Forall_forall. intros b I. apply repeat_spec in I. lia. }
  pose proof (text_model ch (repeat 46 255) CH CS eq_refl) as T. replace (unicode (repeat 46 255)) with (Ok (repeat 46 255)) in T by (vm_compute; reflexivity). exact T.
Qed.
Lemma case_copy : copy_returns buecher_u [] true true (repeat None 4) 4 (map Some [98; 252; 99; 104]) 9 /\ copy_returns buecher_u [7] true true (repeat None 10) 10 (map Some buecher_u ++ [None]) 9 /\
  copy_returns buecher_u [] false true [] 4 [] 9 /\ copy_returns buecher_u [] true false [None] 4 [None] 4.
Proof.
  assert (D0 : ~ In 0 buecher_u) by (cbn; intros H; repeat destruct H as [H|H]; (discriminate H || exact H)).
  assert (DR : Forall (fun c => 0 <= c < two32) buecher_u) by (repeat constructor; (lia || (unfold two32; lia))).
  assert (L9 : zlen buecher_u < 4611686018427387904) by reflexivity.
  split; [|split; [|split] ].
  - apply (copy_ok buecher_u [] true true (repeat None 4) 4 D0 DR L9); [unfold two64; lia|intros _ _; vm_compute; discriminate].
  - apply (copy_ok buecher_u [7] true true (repeat None 10) 10 D0 DR L9); [unfold two64; lia|intros _ _; vm_compute; discriminate].
  - apply (copy_ok buecher_u [] false true [] 4 D0 DR L9); [unfold two64; lia|intros Q; discriminate Q].
  - apply (copy_ok buecher_u [] true false [None] 4 D0 DR L9); [unfold two64; lia|intros _ Q; discriminate Q].
Qed.
