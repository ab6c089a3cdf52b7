(** The Punycode coder's text on a few inputs. *)
From Coq Require Import String.
From Verif Require Import Base PunyBase Puny CLang CLogic CPuny CDecode SpecCPuny CPunyTop.
Local Open Scope string_scope.
Local Open Scope list_scope.
Local Open Scope Z_scope.

(** "mnchen-3ya", "mnchen-3y" with a trailing byte FC (negative where char is signed), nothing. *)
Lemma case_decode : forall ch, char_type ch -> let room := repeat (@None Z) 63 in
  bytes [109;110;99;104;101;110;45;51;121;97] /\
  (exists rest, decode_returns ch [109;110;99;104;101;110;45;51;121;97] 63 room 0 7 (map Some [109;252;110;99;104;101;110] ++ rest)) /\
  (exists out, decode_returns ch [109;110;99;104;101;110;45;51;121;252] 63 room IDN2_PUNYCODE_BAD_INPUT 63 out) /\
  (exists out, decode_returns ch [] 63 room IDN2_PUNYCODE_BAD_INPUT 63 out) /\
  (exists out, decode_returns ch [57;57;57;57;57;57;57;57] 63 room IDN2_PUNYCODE_OVERFLOW 63 out) /\
  (exists out, decode_returns ch [109;110;99;104;101;110;45;51;121;97] 6 room IDN2_PUNYCODE_BIG_OUTPUT 6 out).
Proof.
  intros ch C room. assert (B : forall s, forallb (fun b => (0 <=? b) && (b <=? 255)) s = true -> zlen s < 100 -> bytes s).
  { intros s F L. split; [|unfold two64; lia]. apply Forall_forall. intros x I. rewrite forallb_forall in F. specialize (F x I). lia. }
  assert (CAP : 63 <= zlen room) by (vm_compute; discriminate).
  split; [apply B; [reflexivity|reflexivity]|].
  repeat split.
  - refine (proj2 (text_decode_ok ch _ 63 room C (B _ _ _) ltac:(lia) CAP [109;252;110;99;104;101;110]) _); vm_compute; try reflexivity.
  - refine (proj2 (text_decode_fail ch _ 63 room C (B _ _ _) ltac:(lia) CAP _ _) _); vm_compute; first [reflexivity | discriminate].
  - refine (proj2 (text_decode_fail ch _ 63 room C (B _ _ _) ltac:(lia) CAP _ _) _); vm_compute; first [reflexivity | discriminate].
  - refine (proj2 (text_decode_fail ch _ 63 room C (B _ _ _) ltac:(lia) CAP _ _) _); vm_compute; first [reflexivity | discriminate].
  - refine (proj2 (text_decode_fail ch _ 6 room C (B _ _ _) ltac:(lia) ltac:(vm_compute; discriminate) _ _) _); vm_compute; first [reflexivity | discriminate].
Qed.
Lemma case_encode : forall ch, char_type ch -> let room := repeat (@None Z) 59 in
  words [109;252;110;99;104;101;110] /\
  (exists rest, encode_returns ch [109;252;110;99;104;101;110] 59 room 0 10 (map Some [109;110;99;104;101;110;45;51;121;97] ++ rest)) /\
  (exists out, encode_returns ch [109;252;110;99;104;101;110] 9 room IDN2_PUNYCODE_BIG_OUTPUT 9 out) /\
  (exists out, encode_returns ch [55296] 59 room IDN2_PUNYCODE_BAD_INPUT 59 out).
Proof.
  intros ch C room. assert (B : forall s, forallb (fun b => (0 <=? b) && (b <? two32)) s = true -> zlen s < 100 -> words s).
  { intros s F L. split; [|unfold two64; lia]. apply Forall_forall. intros x I. rewrite forallb_forall in F. specialize (F x I). lia. }
  assert (CAP : 59 <= zlen room) by (vm_compute; discriminate). assert (M : 0 <= 59 < two64) by (unfold two64; lia).
  split; [apply B; [reflexivity|reflexivity]|].
  repeat split.
  - refine (proj2 (text_encode_ok ch _ 59 room C (B _ _ _) M CAP [109;110;99;104;101;110;45;51;121;97]) _); vm_compute; try reflexivity.
  - refine (proj2 (text_encode_fail ch _ 9 room C (B _ _ _) ltac:(unfold two64; lia) ltac:(vm_compute; discriminate) _ _) _); vm_compute; first [reflexivity | discriminate].
  - refine (proj2 (text_encode_fail ch _ 59 room C (B _ _ _) M CAP _ _) _); vm_compute; first [reflexivity | discriminate].
Qed.

(** The size claimed must be there: with room for two and 63 claimed, the third code point is written past the end. *)
Lemma lying_size : forall ch, char_type ch -> exists N, forall n, (N <= n)%nat -> run_decode ch n [109;110;99;104;101;110;45;51;121;97] 63 [None; None] = UB.
Proof.
  intros ch C. exists 200%nat. intros n H. unfold run_decode, run.
  rewrite (exec_mono (types (puny_program ch)) (calls (puny_program ch) 1) (mono1 ch) _ 200 n _ H).
  - destruct C as [-> | ->]; vm_compute; reflexivity.
  - destruct C as [-> | ->]; vm_compute; discriminate.
Qed.
(** i++ + i is not sequenced, and the order matters. *)
Lemma order_matters : exists a b st v st1 w st2, apart a b = false /\ eval (fun _ => I32) (fun _ _ _ _ => UB) 0 a st = Val (v, st1) /\ eval (fun _ => I32) (fun _ _ _ _ => UB) 0 b st1 = Val (w, st2) /\
  ~ exists st1' st2', eval (fun _ => I32) (fun _ _ _ _ => UB) 0 b st = Val (w, st1') /\ eval (fun _ => I32) (fun _ _ _ _ => UB) 0 a st1' = Val (v, st2') /\ alike st2 st2'.
Proof.
  exists (EPost "i"), (EVar "i"), (mkst [("i", (I32, Some 1))] []), (I32, 1), (mkst [("i", (I32, Some 2))] []), (I32, 2), (mkst [("i", (I32, Some 2))] []).
  split; [reflexivity|]. split; [reflexivity|]. split; [reflexivity|]. intros (s1 & s2 & E & _). discriminate E.
Qed.
Lemma lying : forall ch, char_type ch -> exists s mo buf, bytes s /\ 0 <= mo < 4294967295 /\
  exists N, forall n, (N <= n)%nat -> run_decode ch n s mo buf = UB.
Proof.
  intros ch C. exists [109;110;99;104;101;110;45;51;121;97], 63, [None; None]. split; [exact (proj1 (case_decode ch C))|]. split; [lia|]. exact (lying_size ch C).
Qed.
