(** data.c, read as C, declares the table that tables.c searches. *)
From Coq Require Import String Ascii Lia.
From Verif Require Import Base PunyBase DataTypes Gentr46 Tables Scan ScanProofs GenText SpecScan SpecCText CTextLex CTextTr46.
Local Open Scope list_scope.
Local Open Scope Z_scope.

(** Scan.v says what the compiler makes of a row; here is the row printed. *)
Lemma line_fields : forall l, gendata_line l =
  let* x := gendata_fields l in
  match x with
  | None => Ok None
  | Some (a, b, p) => let* lo := c_hex a in let* hi := c_hex b in let* q := c_prop p in Ok (Some (IdnaEntry lo hi q))
  end.
Proof.
  intros l. unfold gendata_line, gendata_fields. destruct (strtok (Some 44) l) as [[a r]|]; [|reflexivity].
  destruct (strtok (Some 44) r) as [[p r']|]; [|reflexivity]. destruct (same p (text "UNASSIGNED")); [reflexivity|].
  destruct (token (Some 44) (skip_delim (Some 44) l)) as [tok r2]. destruct (strtok (Some 45) _) as [[x y]|]; reflexivity.
Qed.

Lemma hex_digit_value : forall c d, hex_digit c = Some d -> digit_value c = d /\ d < 16 /\ is_word c = true.
Proof.
  intros c d. unfold hex_digit, digit_value, is_word.
  repeat match goal with |- context [if ?b then _ else _] => destruct b eqn:? end; intros H; try discriminate; injection H as <-; repeat split; lia.
Qed.
Lemma hex_digits_value : forall s a v, hex_digits s a = (v, []) -> value 16 s a = Some v /\ wordly s.
Proof.
  induction s as [|c s IH]; intros a v H; cbn [hex_digits value] in *; [split; [congruence | constructor]|].
  destruct (hex_digit c) as [d|] eqn:E; [|congruence]. apply hex_digit_value in E. destruct E as (-> & L & W).
  replace (d <? 16) with true by lia. destruct (IH _ _ H). split; [assumption | constructor; assumption].
Qed.
Lemma c_hex_const : forall s v, c_hex s = Ok v -> below (2 ^ 32) (hexw s) = Some v /\ wordly (hexw s).
Proof.
  intros s v H. unfold c_hex in H. destruct s as [|c s]; [discriminate|]. destruct (hex_digit c) eqn:E; [|discriminate].
  destruct (hex_digits (c :: s) 0) as [w r] eqn:D. destruct r; [|discriminate]. destruct (0xffffffff <? w) eqn:L; [discriminate|]. injection H as <-.
  apply hex_digits_value in D. destruct D as (V & W). split; [apply below_ok; [exact V | lia]|]. constructor; [reflexivity | constructor; [reflexivity | exact W] ].
Qed.

Lemma isspace_white : forall c, isspace c = is_white c.
Proof. reflexivity. Qed.
Lemma skip_space_split : forall s, exists a, spaces a /\ s = a ++ skip_space s.
Proof.
  induction s as [|c s (a & A & E)]; [exists []; split; [constructor | reflexivity]|]. cbn [skip_space]. destruct (isspace c) eqn:C.
  - exists (c :: a). split; [constructor; assumption|]. cbn [app]. congruence.
  - exists []. split; [constructor | reflexivity].
Qed.
Lemma chop_space_split : forall s, exists b, spaces b /\ s = chop_space s ++ b.
Proof.
  intros s. destruct (skip_space_split (rev s)) as (a & A & E). exists (rev a). split; [apply Forall_rev; exact A|].
  unfold chop_space. apply (f_equal (@rev Z)) in E. rewrite rev_involutive, rev_app_distr in E. exact E.
Qed.
Lemma c_prop_name : forall s p, c_prop s = Ok p -> exists a b, spaces a /\ spaces b /\ s = a ++ bytes_of (prop_name p) ++ b.
Proof.
  intros s p H. unfold c_prop in H.
  destruct (skip_space_split s) as (a & A & Ea). destruct (chop_space_split (skip_space s)) as (b & B & Eb).
  exists a, b. split; [exact A|]. split; [exact B|].
  assert (K : forall n q, same (chop_space (skip_space s)) (text n) = true -> bytes_of (prop_name q) = text n -> s = a ++ bytes_of (prop_name q) ++ b).
  { intros n q S N. apply same_iff in S. rewrite N, <- S, <- Eb. exact Ea. }
  destruct (same _ (text "PVALID")) eqn:E1; [injection H as <-; exact (K _ PVALID E1 eq_refl)|].
  destruct (same _ (text "CONTEXTJ")) eqn:E2; [injection H as <-; exact (K _ CONTEXTJ E2 eq_refl)|].
  destruct (same _ (text "CONTEXTO")) eqn:E3; [injection H as <-; exact (K _ CONTEXTO E3 eq_refl)|].
  destruct (same _ (text "DISALLOWED")) eqn:E4; [injection H as <-; exact (K _ DISALLOWED E4 eq_refl)|].
  destruct (same _ (text "UNASSIGNED")) eqn:E5; [injection H as <-; exact (K _ UNASSIGNED E5 eq_refl)|]. discriminate.
Qed.
Lemma spaces_lex : forall a, spaces a -> lexes a [].
Proof. intros a H. apply lexes_spaces. exact H. Qed.

Lemma word_then : forall w b c r, wordly w -> w <> [] -> spaces b -> is_word c = false ->
  tokens Plain (w ++ b ++ c :: r) = then_ (CWord w) (tokens Plain (c :: r)).
Proof.
  intros w b c r W N B C. destruct b as [|x b]; [apply lex_word; assumption|]. inversion B; subst.
  cbn [app]. rewrite lex_word; try assumption.
  - f_equal. change (x :: b ++ c :: r) with ((x :: b) ++ c :: r). rewrite (spaces_lex (x :: b)) by assumption. reflexivity.
  - destruct (is_word x) eqn:E; [|reflexivity]. apply word_not_white in E. rewrite isspace_white in H1. congruence.
Qed.
Lemma prop_wordly : forall p, wordly (bytes_of (prop_name p)) /\ bytes_of (prop_name p) <> [].
Proof. intros []; split; try discriminate; repeat constructor. Qed.

Definition row_tokens (a b : list Z) (p : prop) : list ctoken :=
  [open; CWord (hexw a); comma; CWord (hexw b); comma; CWord (bytes_of (prop_name p)); close; comma].
Lemma lexes_row : forall a b t p, wordly (hexw a) -> wordly (hexw b) -> c_prop t = Ok p ->
  lexes (text "  {0x" ++ a ++ text ", 0x" ++ b ++ text ", " ++ t ++ text "}," ++ NL) (row_tokens a b p).
Proof.
  intros a b t p A B T. destruct (c_prop_name _ _ T) as (x & y & X & Y & ->). destruct (prop_wordly p) as (W & N).
  unfold row_tokens.
  change (text "  {0x" ++ a ++ text ", 0x" ++ b ++ text ", " ++ (x ++ bytes_of (prop_name p) ++ y) ++ text "}," ++ NL)
    with ([32; 32; 123] ++ hexw a ++ 44 :: [32] ++ hexw b ++ 44 :: [32] ++ (x ++ bytes_of (prop_name p) ++ y) ++ [125; 44; 10]).
  apply (lexes_app [32; 32; 123] _ [open]); [intro r; reflexivity|].
  apply lexes_word; [exact A | apply hexw_ne | reflexivity |].
  apply (lexes_app [44; 32] _ [comma]); [intro r; reflexivity|].
  apply lexes_word; [exact B | apply hexw_ne | reflexivity |].
  apply (lexes_app [44; 32] _ [comma]); [intro r; reflexivity|].
  rewrite <- app_assoc. apply lexes_cons; [apply spaces_lex; exact X|].
  rewrite <- app_assoc. intro r. rewrite <- app_assoc, <- app_assoc. change ([125; 44; 10] ++ r) with (125 :: 44 :: 10 :: r).
  rewrite word_then; try assumption; reflexivity.
Qed.
Lemma state_of_name : forall p, state_of (bytes_of (prop_name p)) = Some p.
Proof. intros []; reflexivity. Qed.

Lemma rows_ok : forall ls es, gendata_lines ls = Ok es -> exists s ts, gendata_rows ls = Ok (s, zlen es) /\ lexes s ts /\
  forall r, triples idna_of (ts ++ close :: CPunct 59 :: r) = Some (es, CPunct 59 :: r).
Proof.
  induction ls as [|l ls IH]; intros es H; cbn [gendata_lines gendata_rows] in *.
  - injection H as <-. exists [], []. split; [reflexivity|]. split; [apply lexes_nil | reflexivity].
  - rewrite line_fields in H. destruct (gendata_fields l) as [x| | |]; try discriminate. cbn [bind] in *.
    destruct x as [[[a b] t]|].
    + destruct (c_hex a) as [lo| | |] eqn:A; try discriminate. destruct (c_hex b) as [hi| | |] eqn:B; try discriminate.
      destruct (c_prop t) as [p| | |] eqn:T; try discriminate. cbn [bind] in H.
      destruct (gendata_lines ls) as [xs| | |]; try discriminate. cbn [bind] in H. injection H as <-.
      destruct (IH xs eq_refl) as (s & ts & -> & L & R). cbn [bind].
      apply c_hex_const in A. destruct A as (VA & WA). apply c_hex_const in B. destruct B as (VB & WB).
      eexists. exists (row_tokens a b p ++ ts). split; [|split].
      * rewrite zlen_cons, Z.add_comm. reflexivity.
      * match goal with |- lexes ?x _ => replace x with ((text "  {0x" ++ a ++ text ", 0x" ++ b ++ text ", " ++ t ++ text "}," ++ NL) ++ s)
          by (rewrite <- !app_assoc; reflexivity) end.
        apply lexes_app; [apply lexes_row; assumption | exact L].
      * intro r. unfold row_tokens. cbn [app]. unfold open, close at 1, comma. cbn [triples].
        change ((123 =? 123) && (44 =? 44) && (44 =? 44) && (125 =? 125)) with true. cbn iota.
        unfold idna_of at 1. rewrite VA, VB, state_of_name. change (44 =? 125) with false. change (44 =? 44) with true. cbn iota.
        change (CPunct 125) with close. rewrite R. reflexivity.
    + cbn [bind] in H. destruct (gendata_lines ls) as [xs| | |]; try discriminate. cbn [bind] in H. injection H as <-.
      destruct (IH xs eq_refl) as (s & ts & -> & L & R). exists s, ts. auto.
Qed.

Lemma run_data : forall t es, gendata_text t = Ok es -> exists s, gendata_run t = Ok s /\ data_c s = Some (es, zlen es).
Proof.
  intros t es. unfold gendata_text, gendata_run. destruct (buffers (length t) t) as [ls| | |]; try discriminate. cbn [bind].
  destruct ls as [|h ls]; [discriminate|]. destruct (prefix (text "Codepoint,Property,") h); [|discriminate]. intros H.
  destruct (rows_ok _ _ H) as (s & ts & -> & L & R). cbn [bind]. eexists. split; [reflexivity|].
  set (head := [CDirective (bytes_of "include <config.h>"); CDirective (bytes_of "include " ++ quoted "data.h")] ++
               words "const struct idna_table idna_table[] = {").
  destruct (const_dec (zlen es) ltac:(unfold zlen; lia)) as (V & W & N).
  match goal with |- data_c ?x = _ => assert (X : tokens Plain x =
    Some (head ++ ts ++ close :: CPunct 59 :: words "const size_t idna_table_size =" ++ [CWord (fmt_d (zlen es)); CPunct 59])) end.
  { apply lexes_all.
    match goal with |- lexes ?x _ => replace x with (
      (text "/* This file is automatically generated.  DO NOT EDIT! */" ++ NL ++ NL ++ text "#include <config.h>" ++ NL ++
       text "#include " ++ Q ++ text "data.h" ++ Q ++ NL ++ NL ++ text "const struct idna_table idna_table[] = {" ++ NL) ++ s ++
      (text "};" ++ NL ++ text "const size_t idna_table_size = ") ++ fmt_d (zlen es) ++ 59 :: NL) by (rewrite <- !app_assoc; reflexivity) end.
    apply lexes_app; [intro r; reflexivity|]. apply lexes_app; [exact L|].
    change (close :: CPunct 59 :: words "const size_t idna_table_size =" ++ [CWord (fmt_d (zlen es)); CPunct 59])
      with ((close :: CPunct 59 :: words "const size_t idna_table_size =") ++ [CWord (fmt_d (zlen es)); CPunct 59]).
    apply lexes_app; [intro r; reflexivity|]. apply lexes_word; [exact W | exact N | reflexivity | intro r; reflexivity]. }
  unfold data_c. rewrite X. fold head. rewrite after_app, R.
  change (CPunct 59 :: words "const size_t idna_table_size =" ++ [CWord (fmt_d (zlen es)); CPunct 59])
    with (words "; const size_t idna_table_size =" ++ [CWord (fmt_d (zlen es)); CPunct 59]).
  rewrite after_app, V. reflexivity.
Qed.
