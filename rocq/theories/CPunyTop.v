(** The text of the Punycode coder and RFC 3492. *)
From Coq Require Import String.
From Verif Require Import Base PunyBase Puny SpecPuny SpecToAscii SpecPunyErr PunyTop PunyExact PunyErr PunyEncErr PunyComplete CLang CLogic CPuny CLeaf CDecode CDecodeTop CEncode SpecCPuny.
Local Open Scope string_scope.
Local Open Scope list_scope.
Local Open Scope Z_scope.

Lemma returns_fun : forall A (f : nat -> res A) x y, returns f x -> returns f y -> x = y.
Proof. intros A f x y (N & X) (M & Y). specialize (X (N + M)%nat ltac:(lia)). specialize (Y (N + M)%nat ltac:(lia)). congruence. Qed.

Lemma decode_model : forall ch s mo buf, char_type ch -> bytes s -> 0 <= mo < 4294967295 -> mo <= zlen buf ->
  match puny_decode s mo (zlen buf) with
  | Ok L => exists rest, zlen L + zlen rest = zlen buf /\ decode_returns ch s mo buf 0 (zlen L) (map Some L ++ rest)
  | Fail rc => exists out, zlen out = zlen buf /\ decode_returns ch s mo buf rc mo out
  | _ => False
  end.
Proof.
  intros ch s mo buf C (B & LS) MO CAP. pose proof (decode_safe s mo (zlen buf) MO CAP LS) as SF. pose proof (decode_body ch C s B LS mo buf MO CAP) as D. unfold result in D.
  destruct (puny_decode s mo (zlen buf)) as [L|rc| |]; [| |exact SF|exact SF].
  - destruct D as (rest & v & A & _ & n & X & NX). exists rest. split; [exact A|]. exists n. intros k Hk. unfold run_decode, run. cbv beta.
    pose proof (runs_at _ _ (mono1 ch) _ _ _ n X NX k Hk) as Y. unfold CDecode.ms, ms, byte in Y. rewrite Y. reflexivity.
  - destruct D as (v & out & A & n & X & NX). exists out. split; [exact A|]. exists n. intros k Hk. unfold run_decode, run. cbv beta.
    pose proof (runs_at _ _ (mono1 ch) _ _ _ n X NX k Hk) as Y. unfold CDecode.ms, ms, byte in Y. rewrite Y. reflexivity.
Qed.
Lemma encode_model : forall ch l mo buf, char_type ch -> words l -> 0 <= mo < two64 -> mo <= zlen buf ->
  match puny_encode l mo (zlen buf) with
  | Ok s => exists rest, zlen s + zlen rest = zlen buf /\ encode_returns ch l mo buf 0 (zlen s) (map Some s ++ rest)
  | Fail rc => exists out, zlen out = zlen buf /\ encode_returns ch l mo buf rc mo out
  | _ => False
  end.
Proof.
  intros ch l mo buf C (B & LS) MO CAP. change two32 with 4294967296 in B. pose proof (proj1 (encode_safe l mo (zlen buf) B MO CAP)) as SF. pose proof (encode_body ch C l B mo buf MO CAP) as D. cbv zeta in D.
  destruct (puny_encode l mo (zlen buf)) as [L|rc| |]; [| |exact SF|exact SF].
  - destruct D as (rest & v & A & _ & n & X & NX). exists rest. split; [exact A|]. exists n. intros k Hk. unfold run_encode, run. cbv beta.
    pose proof (runs_at _ _ (mono1 ch) _ _ _ n X NX k Hk) as Y. unfold CDecode.ms, ms, byte in Y. rewrite Y. reflexivity.
  - destruct D as (v & out & A & n & X & NX). exists out. split; [exact A|]. exists n. intros k Hk. unfold run_encode, run. cbv beta.
    pose proof (runs_at _ _ (mono1 ch) _ _ _ n X NX k Hk) as Y. unfold CDecode.ms, ms, byte in Y. rewrite Y. reflexivity.
Qed.

Lemma mem_eq : forall (a b : Z) t u (i o1 o2 : list (option Z)), [("input", (t, i)); ("output_length", (U64, [Some a])); ("output", (u, o1))] = [("input", (t, i)); ("output_length", (U64, [Some b])); ("output", (u, o2))] -> a = b /\ o1 = o2.
Proof. intros a b t u i o1 o2 E. injection E as -> ->. auto. Qed.
Lemma same_result : forall (L M : list Z) r1 r2, zlen L = zlen M -> map Some L ++ r1 = map Some M ++ r2 -> L = M.
Proof.
  induction L as [|x L IH]; intros M r1 r2 H E; destruct M as [|y M]; try reflexivity; rewrite ?zlen_cons in H; change (zlen (@nil Z)) with 0 in H; try (assert (0 <= zlen M) by (unfold zlen; lia)); try (assert (0 <= zlen L) by (unfold zlen; lia)); try lia.
  cbn in E. injection E as -> E. f_equal. eapply IH; [lia|exact E].
Qed.

(** The decoder. *)
Section D.
  Variables (ch : cty) (s : list Z) (mo : Z) (buf : list (option Z)).
  Hypothesis CH : char_type ch.
  Hypothesis BS : bytes s.
  Hypothesis MO : 0 <= mo < 4294967295.
  Hypothesis CAP : mo <= zlen buf.
  Lemma text_decode_defined : exists rc len out, decode_returns ch s mo buf rc len out /\ zlen out = zlen buf /\ 0 <= len <= mo.
  Proof.
    pose proof (decode_model ch s mo buf CH BS MO CAP) as M. pose proof (decode_safe s mo (zlen buf) MO CAP (proj2 BS)) as SF.
    destruct (puny_decode s mo (zlen buf)) as [L|rc| |]; try contradiction.
    - destruct M as (rest & A & B). exists 0, (zlen L), (map Some L ++ rest). split; [exact B|]. split; [rewrite zlen_app, zlen_map; exact A|]. unfold zlen at 1. destruct SF; lia.
    - destruct M as (out & A & B). exists rc, mo, out. split; [exact B|]. split; [exact A|lia].
  Qed.
  Lemma text_decode_ok : forall L, (exists rest, decode_returns ch s mo buf 0 (zlen L) (map Some L ++ rest)) <-> puny_decode s mo (zlen buf) = Ok L.
  Proof.
    intros L. pose proof (decode_model ch s mo buf CH BS MO CAP) as M. pose proof (decode_safe s mo (zlen buf) MO CAP (proj2 BS)) as SF. split.
    - intros (rest & X). destruct (puny_decode s mo (zlen buf)) as [L'|rc| |]; try contradiction.
      + destruct M as (rest' & A & B). pose proof (returns_fun _ _ _ _ X B) as E. injection E as E1 E2. f_equal. symmetry. eapply same_result; [exact E1|exact E2].
      + destruct M as (out & A & B). pose proof (returns_fun _ _ _ _ X B) as E. injection E as E1 E2 E3. subst rc. cbn in SF. intuition discriminate.
    - intros E. rewrite E in M. destruct M as (rest & _ & B). exists rest. exact B.
  Qed.
  Lemma text_decode_fail : forall rc, rc <> 0 -> ((exists out, decode_returns ch s mo buf rc mo out) <-> puny_decode s mo (zlen buf) = Fail rc).
  Proof.
    intros rc N. pose proof (decode_model ch s mo buf CH BS MO CAP) as M. split.
    - intros (out & X). destruct (puny_decode s mo (zlen buf)) as [L'|rc'| |]; try contradiction.
      + destruct M as (rest' & A & B). pose proof (returns_fun _ _ _ _ X B) as E. injection E as E1 E2 E3. contradiction.
      + destruct M as (out' & A & B). pose proof (returns_fun _ _ _ _ X B) as E. injection E as E1 E2. now subst rc'.
    - intros E. rewrite E in M. destruct M as (out & _ & B). exists out. exact B.
  Qed.
  Lemma text_decode_rfc : forall L, mo <= 109 -> ((exists rest, decode_returns ch s mo buf 0 (zlen L) (map Some L ++ rest)) <->
    Forall ldh_or_underscore s /\ rfc_decodes (canon s) L /\ Forall permitted L /\ Exists (fun c => 128 <= c) L /\ zlen L <= mo).
  Proof. intros L H. rewrite text_decode_ok. apply decode_iff; [lia|exact CAP|apply BS]. Qed.
  Lemma text_decode_codes : forall rc, (rc <> 0 /\ exists out, decode_returns ch s mo buf rc mo out) <-> decode_fails mo s rc.
  Proof.
    intros rc. rewrite <- (decode_errors s mo (zlen buf) rc MO CAP (proj2 BS)). split.
    - intros (N & X). apply text_decode_fail; assumption.
    - intros E. assert (N : rc <> 0) by (pose proof (decode_safe s mo (zlen buf) MO CAP (proj2 BS)) as SF; rewrite E in SF; intros ->; cbn in SF; intuition discriminate).
      split; [exact N|]. apply text_decode_fail; assumption.
  Qed.
End D.

(** The encoder. *)
Section E.
  Variables (ch : cty) (l : list Z) (mo : Z) (buf : list (option Z)).
  Hypothesis CH : char_type ch.
  Hypothesis WL : words l.
  Hypothesis MO : 0 <= mo < two64.
  Hypothesis CAP : mo <= zlen buf.
  Lemma u32l : u32_list l. Proof. exact (proj1 WL). Qed.
  Lemma enc_codes : forall rc, puny_encode l mo (zlen buf) = Fail rc -> rc <> 0.
  Proof. intros rc E ->. pose proof (encode_shape l mo (zlen buf) u32l MO CAP) as SF. rewrite E in SF. cbn in SF. intuition discriminate. Qed.
  Lemma text_encode_defined : exists rc len out, encode_returns ch l mo buf rc len out /\ zlen out = zlen buf /\ 0 <= len <= mo.
  Proof.
    pose proof (encode_model ch l mo buf CH WL MO CAP) as M. pose proof (encode_shape l mo (zlen buf) u32l MO CAP) as SF.
    destruct (puny_encode l mo (zlen buf)) as [s|rc| |]; try contradiction.
    - destruct M as (rest & A & B). exists 0, (zlen s), (map Some s ++ rest). split; [exact B|]. split; [rewrite zlen_app, zlen_map; exact A|]. unfold zlen at 1. destruct SF; lia.
    - destruct M as (out & A & B). exists rc, mo, out. split; [exact B|]. split; [exact A|lia].
  Qed.
  Lemma text_encode_ok : forall s, (exists rest, encode_returns ch l mo buf 0 (zlen s) (map Some s ++ rest)) <-> puny_encode l mo (zlen buf) = Ok s.
  Proof.
    intros s. pose proof (encode_model ch l mo buf CH WL MO CAP) as M. pose proof enc_codes as EC. split.
    - intros (rest & X). destruct (puny_encode l mo (zlen buf)) as [s'|rc| |]; try contradiction.
      + destruct M as (rest' & A & B). pose proof (returns_fun _ _ _ _ X B) as E. injection E as E1 E2. f_equal. symmetry. eapply same_result; [exact E1|exact E2].
      + destruct M as (out & A & B). pose proof (returns_fun _ _ _ _ X B) as E. injection E as E1 E2 E3. subst rc. elim (EC 0 eq_refl). reflexivity.
    - intros E. rewrite E in M. destruct M as (rest & _ & B). exists rest. exact B.
  Qed.
  Lemma text_encode_fail : forall rc, rc <> 0 -> ((exists out, encode_returns ch l mo buf rc mo out) <-> puny_encode l mo (zlen buf) = Fail rc).
  Proof.
    intros rc N. pose proof (encode_model ch l mo buf CH WL MO CAP) as M. split.
    - intros (out & X). destruct (puny_encode l mo (zlen buf)) as [L'|rc'| |]; try contradiction.
      + destruct M as (rest' & A & B). pose proof (returns_fun _ _ _ _ X B) as E. injection E as E1 E2 E3. contradiction.
      + destruct M as (out' & A & B). pose proof (returns_fun _ _ _ _ X B) as E. injection E as E1 E2. now subst rc'.
    - intros E. rewrite E in M. destruct M as (out & _ & B). exists out. exact B.
  Qed.
  Lemma text_encode_rfc : forall s, mo <= 109 -> ((exists rest, encode_returns ch l mo buf 0 (zlen s) (map Some s ++ rest)) <-> Forall permitted l /\ rfc_encodes l s /\ zlen s <= mo).
  Proof. intros s H. rewrite text_encode_ok. apply encode_iff; [exact u32l|lia|exact CAP]. Qed.
  Lemma text_encode_codes : forall rc, mo <= 109 -> zlen l <= 4172415000 -> ((rc <> 0 /\ exists out, encode_returns ch l mo buf rc mo out) <-> encode_fails mo l rc).
  Proof.
    intros rc H1 H2. rewrite <- (encode_errors l mo (zlen buf) rc u32l ltac:(lia) CAP H2). split.
    - intros (N & X). apply text_encode_fail; assumption.
    - intros E. split; [exact (enc_codes rc E)|]. apply text_encode_fail; [exact (enc_codes rc E)|exact E].
  Qed.
End E.

(** One machine encodes, another decodes. *)
Lemma text_round_trip : forall ch ch' l mo buf s rest mo2 buf2, char_type ch -> char_type ch' -> words l -> 0 <= mo < two64 -> mo <= zlen buf ->
  encode_returns ch l mo buf 0 (zlen s) (map Some s ++ rest) ->
  Forall (fun c => c < 128 -> ldh_or_underscore c) l -> Exists (fun c => 128 <= c) l -> zlen l <= 110 -> zlen l <= mo2 < 4294967295 -> mo2 <= zlen buf2 ->
  exists rest2, decode_returns ch' s mo2 buf2 0 (zlen l) (map Some l ++ rest2).
Proof.
  intros ch ch' l mo buf s rest mo2 buf2 C C' W MO CAP E A X L1 L2 CAP2. assert (E1 : puny_encode l mo (zlen buf) = Ok s) by (apply (text_encode_ok ch l mo buf C W MO CAP); now exists rest).
  assert (L0 : 0 <= zlen l) by (unfold zlen; lia). pose proof (encode_shape l mo (zlen buf) (proj1 W) MO CAP) as SH. rewrite E1 in SH. destruct SH as (LS & _ & ds & DS & ES).
  assert (B : bytes s).
  { split; [|lia]. rewrite ES. apply Forall_app. split; [|apply Forall_app; split].
    - apply Forall_forall. intros c IN. unfold ascii_part in IN. apply filter_In in IN. destruct IN as (IN & C1). pose proof (proj1 (Forall_forall _ _) (proj1 W) c IN) as HC. cbv beta in HC. unfold two32 in HC. lia.
    - destruct (zlen (ascii_part l) =? 0); constructor; [lia|constructor].
    - eapply Forall_impl; [|exact DS]. intros c H. unfold lower_or_digit in H. lia. }
  apply (text_decode_ok ch' s mo2 buf2 C' B ltac:(lia) CAP2).
  destruct (encode_decode l mo (zlen buf) s mo2 (zlen buf2) (proj1 W) MO CAP E1 A X ltac:(lia) CAP2) as [D|(D & _)]; [exact D|lia].
Qed.
