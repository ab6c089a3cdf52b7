(** The functions around idn2_to_unicode_8z4z: the cases beside the theorems of PropCUni.v. *)
From Coq Require Import String.
From Verif Require Import Base PunyBase SpecUtf8 SpecLookup SpecUnicode SpecUniRefusal Utf8 Utf8Proofs Lookup Api DecodeProofs LookupExamples UniRefusalTop
  CLang CUni SpecCPuny SpecCRegister SpecCUnicode SpecCWrap SpecCUni CUnicodeCases CWrapCases CUniRun CUniTop.
Local Open Scope string_scope.
Local Open Scope list_scope.
Local Open Scope Z_scope.

Definition u8_of : list Z -> Z + list Z := b_result u4_of.
Definition ul_of (to : list Z -> option (list Z)) : list Z -> Z + list Z := c_result u8_of to.
(** To ISO 8859-1, for names that fit into a kilobyte. *)
Definition to_latin1 (b : list Z) : option (list Z) :=
  match u8_to_u32 b with Some l => if forallb (fun c => c <? 256) l && (zlen l <? 1024) then Some l else None | None => None end.
(** Xn--bcher-kva.ü. and xn--r49b *)
Definition buecher_in : list Z := [88; 110; 45; 45; 98; 99; 104; 101; 114; 45; 107; 118; 97; 46; 252; 46].
Definition buecher_8 : list Z := [98; 195; 188; 99; 104; 101; 114; 46; 195; 188; 46].
Definition stray : list Z := [120; 110; 45; 45; 114; 52; 57; 98].
Lemma latin1_fits : to_fits to_latin1.
Proof.
  intros b x. unfold to_latin1. destruct (u8_to_u32 b) as [l|]; [|discriminate]. destruct (forallb _ l); [|discriminate]. cbn [andb]. destruct (zlen l <? 1024) eqn:E; [|discriminate]. intros Q. injection Q as <-. apply Z.ltb_lt in E. lia.
Qed.
Lemma case_has : to_fits to_latin1 /\ forall from, uni_has u4_of u8_of (ul_of to_latin1) from to_latin1.
Proof.
  split; [exact latin1_fits|]. intros from. split; [exact u4_of_is|]. split; [apply have_8z8z|exact (have_8zlz _ from to_latin1 latin1_fits)].
Qed.
Lemma case_a : unicode_is u4_of /\ forall u8 ul from to, text_4z4z u4_of u8 ul from to buecher_in (inr buecher_u) /\ utf8 buecher_in buecher /\
  text_4z4z u4_of u8 ul from to [97; 55296] (inl IDN2_ENCODING_ERROR) /\ text_4z4z u4_of u8 ul from to (repeat 97 64) (inl IDN2_TOO_BIG_LABEL).
Proof.
  split; [exact u4_of_is|]. intros u8 ul from to.
  assert (A : forall l r, ~ In 0 l -> zlen l <= 1000 -> a_result u4_of l = r -> text_4z4z u4_of u8 ul from to l r) by (intros l r N L E; apply (a_iff u4_of u8 ul from to u4_of_is l N); [lia|exact E]).
  split; [apply A; [cbn; lia|vm_compute; discriminate|vm_compute; reflexivity]|]. split; [apply u32_to_u8_iff; reflexivity|].
  split; (apply A; [cbn; lia|vm_compute; discriminate|vm_compute; reflexivity]).
Qed.
Lemma buecher_c : c_string buecher. Proof. unfold c_string, buecher. in_range_list. Qed.
Lemma stray_c : c_string stray. Proof. unfold c_string, stray. in_range_list. Qed.
Lemma long_c : c_string (repeat 97 64). Proof. unfold c_string. cbn [repeat]. in_range_list. Qed.
Lemma case_b : forall u8 ul from to, text_8z8z u4_of u8 ul from to buecher (inr buecher_8) /\ utf8 buecher_u buecher_8 /\
  text_8z8z u4_of u8 ul from to stray (inl IDN2_ENCODING_ERROR) /\ unicode_name stray [56320] /\ text_8z8z u4_of u8 ul from to (repeat 97 64) (inl IDN2_TOO_BIG_LABEL).
Proof.
  intros u8 ul from to.
  assert (A : forall s r, c_string s -> zlen s <= 1000 -> b_result u4_of s = r -> text_8z8z u4_of u8 ul from to s r) by (intros s r C L E; apply (b_iff u4_of u8 ul from to u4_of_is s C); [lia|exact E]).
  split; [apply A; [exact buecher_c|vm_compute; discriminate|vm_compute; reflexivity]|]. split; [apply u32_to_u8_iff; reflexivity|].
  split; [apply A; [exact stray_c|vm_compute; discriminate|vm_compute; reflexivity]|]. split; [exact (proj1 (proj2 case_surrogate))|].
  apply A; [exact long_c|vm_compute; discriminate|vm_compute; reflexivity].
Qed.
Lemma case_c : let P := fun s r => text_8zlz u4_of u8_of (ul_of to_latin1) latin1 to_latin1 s r in
  P buecher (inr buecher_u) /\ P [206; 177] (inl IDN2_ENCODING_ERROR) /\ P stray (inl IDN2_ENCODING_ERROR) /\ P (repeat 97 64) (inl IDN2_TOO_BIG_LABEL).
Proof.
  intros P.
  assert (A : forall s r, c_string s -> zlen s <= 1000 -> c_result u8_of to_latin1 s = r -> P s r).
  { intros s r C L E. destruct (proj2 case_has latin1) as (H1 & H2 & _). apply (c_iff u4_of u8_of (ul_of to_latin1) latin1 to_latin1 H1 H2 latin1_fits s C); [lia|exact E]. }
  split; [|split; [|split] ]; (apply A; [|vm_compute; discriminate|vm_compute; reflexivity]); [exact buecher_c|unfold c_string; in_range_list|exact stray_c|exact long_c].
Qed.
Lemma case_d : let P := fun from s r => text_lzlz u4_of u8_of (ul_of to_latin1) from to_latin1 s r in
  P latin1 buecher_in (inr buecher_u) /\ latin1 buecher_in = Some buecher /\ P (fun _ => None) [97] (inl IDN2_ICONV_FAIL) /\ P latin1 (repeat 97 64) (inl IDN2_TOO_BIG_LABEL).
Proof.
  intros P.
  assert (A : forall from s r, ~ In 0 s -> (forall c, from s = Some c -> c_string c /\ zlen c <= 1000) -> d_result (ul_of to_latin1) from s = r -> P from s r).
  { intros from s r N FC E. destruct (proj2 case_has from) as (H1 & H2 & H3). apply (d_iff u4_of u8_of (ul_of to_latin1) from to_latin1 H1 H2 latin1_fits H3 s N); [|exact E]. intros c Q. destruct (FC c Q). split; [assumption|lia]. }
  split; [apply A; [cbn; lia| |vm_compute; reflexivity]|]. { intros c E. injection E as <-. split; [exact buecher_c|vm_compute; discriminate]. }
  split; [reflexivity|]. split; [apply A; [cbn; lia|intros c E; discriminate E|reflexivity]|].
  apply A; [cbn; lia| |vm_compute; reflexivity]. intros c E. injection E as <-. split; [exact long_c|vm_compute; discriminate].
Qed.
