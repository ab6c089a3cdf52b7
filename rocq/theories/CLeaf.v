(** The small functions of the Punycode coder. *)
From Coq Require Import String.
From Verif Require Import Base PunyBase Puny CLang CLogic CPuny.
Local Open Scope list_scope.
Local Open Scope Z_scope.

Arguments Z.eqb : simpl nomatch.
Arguments Z.leb : simpl nomatch.
Arguments Z.ltb : simpl nomatch.
Arguments Z.add : simpl nomatch.
Arguments Z.sub : simpl nomatch.
Arguments Z.mul : simpl nomatch.
Arguments Z.quot : simpl never.
Arguments Z.rem : simpl never.
Arguments Z.modulo : simpl never.
Arguments Z.div : simpl never.
Arguments Z.shiftr : simpl never.
Arguments Z.shiftl : simpl never.
Arguments cell : simpl never.
Arguments set_cell : simpl never.
Arguments move : simpl never.
Arguments loop : simpl never.

Lemma u32_id : forall z, 0 <= z < 4294967296 -> u32 z = z. Proof. intros z H. unfold u32, two32. now apply Z.mod_small. Qed.

Lemma u32_range : forall z, 0 <= u32 z < 4294967296. Proof. intros z. unfold u32, two32. apply Z.mod_pos_bound. lia. Qed.
Ltac brk := match goal with |- context [?a <=? ?b] => destruct (a <=? b) eqn:? | |- context [?a <? ?b] => destruct (a <? b) eqn:? | |- context [?a =? ?b] => destruct (a =? b) eqn:? end; cbn; try (exfalso; lia).

Ltac uc := repeat match goal with
  | |- context [u32 (Zpos ?p)] => change (u32 (Zpos p)) with (Zpos p) | |- context [u32 0] => change (u32 0) with 0
  | |- context [u32 (-1)] => change (u32 (-1)) with 4294967295
  | |- context [Z.quot (Zpos ?p) (Zpos ?q)] => let r := eval vm_compute in (Z.quot (Zpos p) (Zpos q)) in change (Z.quot (Zpos p) (Zpos q)) with r
  | |- context [u64 (Zpos ?p)] => change (u64 (Zpos p)) with (Zpos p) | |- context [u64 0] => change (u64 0) with 0 end.
Ltac ur := repeat match goal with |- context [u32 ?z] => rewrite (u32_id z) by lia end.
Ltac cc := cbn; unfold cast; cbn; uc.

Lemma c_digit : forall ch cp, -128 <= cp <= 255 -> ch = I8 \/ ch = U8 -> calls (puny_program ch) 1 0 "decode_digit"%string [(ch, cp)] [] = Val (decode_digit cp).
Proof.
  intros ch cp H C. assert (E : cast ch I32 cp = cp) by (destruct C as [-> | ->]; reflexivity). unfold decode_digit.
  cbn. rewrite E. cbn. repeat brk; unfold cast; cbn; try rewrite u32_id by lia; try reflexivity.
Qed.
Lemma c_enc_digit : forall ch d, 0 <= d < 36 -> ch = I8 \/ ch = U8 -> calls (puny_program ch) 1 0 "encode_digit"%string [(U32, d); (I32, 0)] [] = Val (encode_digit d).
Proof.
  intros ch d H C. unfold encode_digit. cc. destruct (d <? 26) eqn:L; repeat (cc; rewrite ?L); change (Z.shiftl 0 5) with 0; cc; ur;
    destruct C as [-> | ->]; cc; rewrite Z.mod_small by lia; f_equal; lia.
Qed.

Local Open Scope string_scope.
Local Open Scope Z_scope.
Ltac ev := exists O; cc; try reflexivity.
Lemma quot_div : forall a b, 0 <= a -> 0 < b -> Z.quot a b = a / b. Proof. intros. apply Z.quot_div_nonneg; lia. Qed.
Lemma div_range : forall a b, 0 <= a < 4294967296 -> 0 < b -> 0 <= a / b < 4294967296.
Proof. intros a b A B. split; [apply Z.div_pos; lia|]. apply Z.div_lt_upper_bound; nia. Qed.
Section Adapt.
  Variable ch : cty.
  Notation rt := (types (puny_program ch)).
  Notation cl := (calls (puny_program ch) 0).
  Definition ast (d np ft k : option Z) : cst := mkst [("delta", (U32, d)); ("numpoints", (U32, np)); ("firsttime", (I32, ft)); ("k", (U32, k))] [].
  Definition a_loop : stmt := Eval cbn in match f_body c_adapt with SSeq _ (SSeq _ (SSeq (SSeq _ l) _)) => l | s => s end.
  Lemma cl_mono : forall n m f vs a, (n <= m)%nat -> cl n f vs a <> Fuel -> cl m f vs a = cl n f vs a. Proof. intros; now apply calls_mono. Qed.
  Lemma adapt_runs : forall fuel k d r np ft, 0 <= k < 4294967296 -> 0 <= d < 4294967296 -> adapt_loop fuel k d = Ok r ->
    exists d' k', runs rt cl a_loop (ast (Some d) np ft (Some k)) (Norm (ast (Some d') np ft (Some k'))) /\ 0 <= d' < 4294967296 /\ 0 <= k' < 4294967296 /\
      u32 (d' + 38) <> 0 /\ r = u32 (k' + u32 (36 * d') / u32 (d' + 38)).
  Proof.
    induction fuel as [|fuel IH]; intros k d r np ft Hk Hd E; cbn [adapt_loop] in E; [discriminate|]. destruct (455 <? d) eqn:L.
    - pose proof (div_range d 35 Hd ltac:(lia)) as Q. destruct (IH (u32 (k + 36)) (d / 35) r np ft (u32_range _) Q E) as (d' & k' & X & Y). exists d', k'. split; [|exact Y].
      eapply (runs_loop_next rt cl cl_mono); [| | | |exact X].
      + ev.
      + cc. rewrite L. discriminate.
      + eapply (runs_exp rt cl). ev.
      + eapply (runs_exp rt cl). ev. rewrite quot_div, (u32_id (d / 35)) by lia. reflexivity.
    - destruct (u32 (d + 38) =? 0) eqn:N; [discriminate|]. injection E as <-. exists d, k. split; [|repeat (split; [lia|]); reflexivity].
      eapply (runs_loop_end rt cl cl_mono); [ev|]. cc. rewrite L. reflexivity.
  Qed.
  Lemma c_adapt_ok : forall d np (ft : bool) r, 0 <= d < 4294967296 -> 0 <= np < 4294967296 -> adapt d np ft = Ok r ->
    exists n, calls (puny_program ch) 1 n "adapt" [(U32, d); (U32, np); (I32, if ft then 1 else 0)] [] = Val r.
  Proof.
    intros d np ft r Hd Hn E. unfold adapt in E. destruct (np =? 0) eqn:N; [discriminate|].
    set (d1 := if ft then d / 700 else Z.shiftr d 1) in *. assert (D1 : 0 <= d1 < 4294967296).
    { unfold d1. destruct ft; [apply div_range; lia|]. rewrite Z.shiftr_div_pow2 by lia. apply div_range; lia. }
    destruct (adapt_runs 32 0 (u32 (d1 + d1 / np)) r (Some np) (Some (if ft then 1 else 0)) ltac:(lia) (u32_range _) E) as (d' & k' & X & Hd' & Hk' & Hz & ->).
    enough (Y : exists st, runs rt cl (f_body c_adapt) (ast (Some d) (Some np) (Some (if ft then 1 else 0)) None) (Ret (U32, u32 (k' + u32 (36 * d') / u32 (d' + 38))) st)).
    { destruct Y as (st & Y). destruct (calls_run (puny_program ch) 0 "adapt" c_adapt [(U32, d); (U32, np); (I32, if ft then 1 else 0)] [] _ st eq_refl eq_refl eq_refl eq_refl Y) as (n & F).
      exists n. apply (F n). lia. }
    eexists. eapply (runs_seq rt cl cl_mono).
    { eapply (runs_exp rt cl). ev. instantiate (1 := (ast (Some d1) (Some np) (Some (if ft then 1 else 0)) None)). instantiate (1 := (U32, d1)).
      destruct ft; cc; [rewrite quot_div, (u32_id (d / 700)) by (try lia; apply div_range; lia)|destruct (d <? 0) eqn:B; [lia|cc]]; reflexivity. }
    eapply (runs_seq rt cl cl_mono).
    { eapply (runs_exp rt cl). ev. rewrite N. cc. rewrite quot_div, (u32_id (d1 / np)) by (try lia; apply div_range; lia). reflexivity. }
    eapply (runs_seq rt cl cl_mono).
    { eapply (runs_seq rt cl cl_mono); [eapply (runs_exp rt cl); ev|]. exact X. }
    eapply (runs_ret rt cl). ev. destruct (u32 (d' + 38) =? 0) eqn:Q; [lia|]. cc.
    pose proof (u32_range (36 * d')). pose proof (u32_range (d' + 38)). rewrite quot_div, (u32_id (_ / _)) by (try lia; apply div_range; lia). reflexivity.
  Qed.
End Adapt.
