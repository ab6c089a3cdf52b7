(** The text of the Punycode decoder computes what Puny.v says. *)
From Coq Require Import String.
From Verif Require Import Base PunyBase Puny CLang CLogic CPuny CLeaf.
Local Open Scope string_scope.
Local Open Scope list_scope.
Local Open Scope Z_scope.
Arguments calls : simpl never.

Fixpoint flat (s : stmt) : list stmt := match s with SSeq a b => a :: flat b | s => [s] end.
Definition second (s : stmt) : stmt := match s with SSeq _ b => b | s => s end.
Definition loop_body (s : stmt) : stmt := match s with SLoop _ _ b => b | s => s end.
Definition then_part (s : stmt) : stmt := match s with SIf _ a _ => a | s => s end.
Definition d_items : list stmt := Eval cbn in flat (f_body c_punycode_decode).
Definition d_check : stmt := Eval cbn in second (nth 3 d_items SSkip).
Definition d_delim : stmt := Eval cbn in then_part (nth 5 d_items SSkip).
Definition d_copy : stmt := Eval cbn in second (nth 2 (flat d_delim) SSkip).
Definition d_main : stmt := Eval cbn in second (nth 9 d_items SSkip).
Definition d_inner : stmt := Eval cbn in second (nth 0 (flat (loop_body d_main)) SSkip).

(** Arrays. *)
Lemma zlen_map : forall A B (f : A -> B) l, zlen (map f l) = zlen l. Proof. intros. unfold zlen. now rewrite map_length. Qed.
Lemma cell_app : forall l x r, cell (l ++ Some x :: r) (zlen l) = Val x.
Proof.
  intros l x r. unfold cell. rewrite zlen_app, zlen_cons. assert (0 <= zlen l) by (unfold zlen; lia). assert (0 <= zlen r) by (unfold zlen; lia).
  destruct (0 <=? zlen l) eqn:A; [|lia]. destruct (zlen l <? zlen l + (1 + zlen r)) eqn:B; [|lia]. cbn [andb].
  unfold zlen at 1. rewrite Nat2Z.id, app_nth2, Nat.sub_diag by lia. reflexivity.
Qed.
Lemma set_cell_app : forall l x y r, set_cell (l ++ x :: r) (zlen l) y = Val (l ++ Some y :: r).
Proof.
  intros l x y r. unfold set_cell. rewrite zlen_app, zlen_cons. assert (0 <= zlen l) by (unfold zlen; lia). assert (0 <= zlen r) by (unfold zlen; lia).
  destruct (0 <=? zlen l) eqn:A; [|lia]. destruct (zlen l <? zlen l + (1 + zlen r)) eqn:B; [|lia]. cbn [andb].
  unfold zlen at 1. rewrite Nat2Z.id. rewrite firstn_app, Nat.sub_diag, firstn_all, app_nil_r. cbn [firstn app]. f_equal. f_equal. f_equal.
  unfold zlen. rewrite Nat2Z.id. rewrite skipn_app. rewrite (skipn_all2 l) by lia. replace (S (length l) - length l)%nat with 1%nat by lia. reflexivity.
Qed.
Lemma u64_id : forall z, 0 <= z < two64 -> u64 z = z. Proof. intros z H. unfold u64. now apply Z.mod_small. Qed.
Lemma set_cell_out : forall (o : list Z) x y r, set_cell (map Some o ++ x :: r) (zlen o) y = Val (map Some o ++ Some y :: r).
Proof. intros. rewrite <- (zlen_map _ _ (@Some Z) o). apply set_cell_app. Qed.
(** What memmove and the store that follows do. *)
Lemma insert_move : forall a b x r n, exists m, move (a ++ b ++ x :: r) (zlen a + 1) (zlen a) (zlen b) = Val m /\ set_cell m (zlen a) n = Val (a ++ Some n :: b ++ r).
Proof.
  intros a b x r n. assert (La : 0 <= zlen a) by (unfold zlen; lia). assert (Lb : 0 <= zlen b) by (unfold zlen; lia). assert (Lr : 0 <= zlen r) by (unfold zlen; lia).
  unfold move. rewrite !zlen_app, zlen_cons.
  replace ((0 <=? zlen b) && (0 <=? zlen a + 1) && (zlen a + 1 + zlen b <=? zlen a + (zlen b + (1 + zlen r))) && (0 <=? zlen a) && (zlen a + zlen b <=? zlen a + (zlen b + (1 + zlen r)))) with true
    by (symmetry; repeat (apply andb_true_intro; split); lia).
  assert (E1 : Z.to_nat (zlen a + 1) = S (length a)) by (unfold zlen; lia). assert (E2 : Z.to_nat (zlen a) = length a) by (unfold zlen; lia).
  assert (E3 : Z.to_nat (zlen b) = length b) by (unfold zlen; lia). assert (E4 : Z.to_nat (zlen a + 1 + zlen b) = (length a + S (length b))%nat) by (unfold zlen; lia).
  rewrite E1, E2, E3, E4. rewrite (firstn_app (S (length a)) a), (firstn_all2 a) by lia. replace (S (length a) - length a)%nat with 1%nat by lia.
  rewrite (skipn_app (length a) a), skipn_all, Nat.sub_diag. cbn [app skipn].
  rewrite (firstn_app (length b) b), firstn_all, Nat.sub_diag. cbn [firstn]. rewrite app_nil_r.
  rewrite (skipn_app (length a + S (length b)) a), (skipn_all2 a) by lia. replace (length a + S (length b) - length a)%nat with (S (length b)) by lia. cbn [app].
  rewrite (skipn_app (S (length b)) b), (skipn_all2 b) by lia. replace (S (length b) - length b)%nat with 1%nat by lia. cbn [app skipn].
  destruct b as [|y b]; cbn [app firstn length].
  - eexists. split; [reflexivity|]. rewrite <- app_assoc. cbn [app]. apply set_cell_app.
  - eexists. split; [reflexivity|]. rewrite <- app_assoc. cbn [app]. rewrite set_cell_app. reflexivity.
Qed.
Lemma adapt_range : forall d np ft r, 0 <= d < 4294967296 -> 0 <= np < 4294967296 -> adapt d np ft = Ok r -> 0 <= r < 4294967296.
Proof.
  intros d np ft r Hd Hn E. unfold adapt in E. destruct (np =? 0); [discriminate|].
  set (d1 := if ft then d / 700 else Z.shiftr d 1) in *.
  destruct (adapt_runs U8 32 0 (u32 (d1 + d1 / np)) r None None ltac:(lia) (u32_range _) E) as (d' & k' & _ & _ & _ & _ & ->). apply u32_range.
Qed.

Lemma basic_eval : forall rt cl ch n e st c, ch = I8 \/ ch = U8 -> eval rt cl n e st = Val ((ch, c), st) -> eval rt cl n (basic e) st = Val ((I32, if dec_basic c then 1 else 0), st).
Proof.
  intros rt cl ch n e st c [-> | ->] A; unfold basic, dec_basic; cbn; rewrite A; cbn; repeat (brk; try reflexivity; rewrite ?A; cbn); first [reflexivity | exfalso; cbn in *; discriminate].
Qed.
Lemma delim_eval : forall rt cl ch n e st c, ch = I8 \/ ch = U8 -> eval rt cl n e st = Val ((ch, c), st) -> eval rt cl n (EBin Eq e (int 45)) st = Val ((I32, if c =? 45 then 1 else 0), st).
Proof. intros rt cl ch n e st c [-> | ->] A; cbn; rewrite A; reflexivity. Qed.

Section Decode.
  Variable ch : cty.
  Hypothesis CH : ch = I8 \/ ch = U8.
  Notation rt := (types (puny_program ch)).
  Notation cl := (calls (puny_program ch) 1).
  Lemma mono1 : forall n m f vs a, (n <= m)%nat -> cl n f vs a <> Fuel -> cl m f vs a = cl n f vs a. Proof. intros; now apply calls_mono. Qed.
  Notation R := (runs rt cl).

  Definition byte (b : Z) : option Z := Some (conv ch b).
  Lemma conv_byte : forall b, 0 <= b <= 255 -> conv ch b = b \/ (127 < b /\ conv ch b = b - 256).
  Proof.
    intros b H. destruct CH as [-> | ->]; cbn.
    - destruct (Z_lt_dec b 128); [left; rewrite Z.mod_small; lia|right]. split; [lia|]. replace (b + 128) with (b - 128 + 1 * 256) by lia. rewrite Z.mod_add, Z.mod_small by lia. lia.
    - left. apply Z.mod_small. lia.
  Qed.

  Variable s : list Z.
  Hypothesis BS : Forall (fun b => 0 <= b <= 255) s.
  Hypothesis LS : zlen s < two64.
  Variables (mo cap : Z).
  Hypothesis MO : 0 <= mo < 4294967295.
  Hypothesis CAP : mo <= cap.

  Definition vs (n out i mx bias oldi w k digit t b j inn : option Z) : list (string * (cty * option Z)) :=
    [("input_length", (U64, Some (zlen s))); ("n", (U32, n)); ("out", (U32, out)); ("i", (U32, i)); ("max_out", (U32, mx)); ("bias", (U32, bias)); ("oldi", (U32, oldi));
     ("w", (U32, w)); ("k", (U32, k)); ("digit", (U32, digit)); ("t", (U32, t)); ("b", (U64, b)); ("j", (U64, j)); ("in", (U64, inn))].
  Definition ms (buf : list (option Z)) : list (string * (cty * list (option Z))) := [("input", (ch, map byte s)); ("output_length", (U64, [Some mo])); ("output", (U32, buf))].

  Lemma in_cell : forall p c r, s = p ++ c :: r -> cell (map byte s) (zlen p) = Val (conv ch c).
  Proof. intros p c r ->. rewrite map_app. cbn [map]. rewrite <- (zlen_map _ _ byte p). apply cell_app. Qed.
  Lemma in_byte : forall p c r, s = p ++ c :: r -> 0 <= c <= 255 /\ 0 <= zlen p < zlen s.
  Proof.
    intros p c r E. split; [rewrite E in BS; apply Forall_app in BS; destruct BS as (_ & X); now inversion X|]. rewrite E, zlen_app, zlen_cons. unfold zlen. lia.
  Qed.

  Lemma dec_basic_conv : forall b, 0 <= b <= 255 -> dec_basic (conv ch b) = dec_basic b /\ (conv ch b =? 45) = (b =? 45) /\ (dec_basic b = true -> conv ch b = b).
  Proof.
    intros b H. destruct (conv_byte b H) as [-> | (G & ->)]; [auto|]. unfold dec_basic.
    repeat match goal with |- context [?a <=? ?b] => first [replace (a <=? b) with false by lia | replace (a <=? b) with true by lia] | |- context [?a =? ?b] => replace (a =? b) with false by lia end.
    cbn. split; [reflexivity|]. split; [reflexivity|discriminate].
  Qed.

  (** The check loop. *)
  Lemma check_runs : forall l p j b buf n out i mx bias oldi w k digit t inn, s = p ++ l -> j = zlen p -> 0 <= b <= j ->
    match dec_check l j b with
    | Ok b' => R d_check (mkst (vs n out i mx bias oldi w k digit t (Some b) (Some j) inn) (ms buf)) (Norm (mkst (vs n out i mx bias oldi w k digit t (Some b') (Some (zlen s)) inn) (ms buf))) /\ 0 <= b' /\ (b' = b \/ b' < zlen s)
    | Fail rc => exists v, R d_check (mkst (vs n out i mx bias oldi w k digit t (Some b) (Some j) inn) (ms buf)) (Ret (I32, rc) (mkst v (ms buf)))
    | _ => False
    end.
  Proof.
    induction l as [|c l IH]; intros p j b buf n out i mx bias oldi w k digit t inn E J B; cbn [dec_check].
    - rewrite app_nil_r in E. subst p. split; [|lia]. subst j. eapply (runs_loop_end rt cl mono1); [ev|]. cc. rewrite Z.ltb_irrefl. reflexivity.
    - destruct (in_byte p c l E) as (Hc & Hp). pose proof (in_cell p c l E) as IC. rewrite <- J in IC, Hp.
      assert (LT : (j <? zlen s) = true) by lia. destruct (dec_basic_conv c Hc) as (CB & CE & CI).
      set (st := mkst (vs n out i mx bias oldi w k digit t (Some b) (Some j) inn) (ms buf)).
      assert (A : eval rt cl 0 (EIdx "input" (EVar "j")) st = Val ((ch, conv ch c), st)) by (cbn; rewrite IC; reflexivity).
      pose proof (basic_eval rt cl ch 0 _ st _ CH A) as BE. rewrite CB in BE.
      destruct (dec_basic c) eqn:BA.
      + assert (ST : forall b1, b1 = (if c =? 45 then j else b) -> R (loop_body d_check) st (Norm (mkst (vs n out i mx bias oldi w k digit t (Some b1) (Some j) inn) (ms buf)))).
        { intros b1 ->. eapply (runs_seq rt cl mono1).
          - eapply (runs_if rt cl mono1); [exists O; cbn [eval]; rewrite BE; reflexivity|]. cbn. apply runs_skip.
          - pose proof (delim_eval rt cl ch 0 _ st _ CH A) as DE. rewrite CE in DE. eapply (runs_if rt cl mono1); [exists O; exact DE|].
            destruct (c =? 45); cbn; [|apply runs_skip]. eapply (runs_exp rt cl). ev. }
        assert (J1 : j + 1 = zlen (p ++ [c])) by (rewrite zlen_app, J; reflexivity).
        assert (STP : forall b1, R (SExp (EPre "j")) (mkst (vs n out i mx bias oldi w k digit t (Some b1) (Some j) inn) (ms buf)) (Norm (mkst (vs n out i mx bias oldi w k digit t (Some b1) (Some (j + 1)) inn) (ms buf)))).
        { intros b1. eapply (runs_exp rt cl). ev. unfold u64. rewrite Z.mod_small by lia. reflexivity. }
        specialize (IH (p ++ [c]) (j + 1) (if c =? 45 then j else b) buf n out i mx bias oldi w k digit t inn ltac:(rewrite <- app_assoc; exact E) J1 ltac:(destruct (c =? 45); lia)).
        change delimiter with 45. destruct (dec_check l (j + 1) (if c =? 45 then j else b)) as [b'|rc| |]; [| |exact IH|exact IH].
        * destruct IH as (IH & Q1 & Q2). split; [|split; [exact Q1|destruct (c =? 45); lia]].
          eapply (runs_loop_next rt cl mono1); [ev| |exact (ST _ eq_refl)|exact (STP _)|exact IH]. cc. rewrite LT. discriminate.
        * destruct IH as (v & IH). exists v. eapply (runs_loop_next rt cl mono1); [ev| |exact (ST _ eq_refl)|exact (STP _)|exact IH]. cc. rewrite LT. discriminate.
      + eexists. eapply (runs_loop_stop rt cl mono1 _ _ _ _ _ _ (Ret _ _)); [ev| | |exact I]; [cc; rewrite LT; discriminate|].
        eapply (runs_seq_stop rt cl); [|exact I]. eapply (runs_if rt cl mono1); [exists O; cbn [eval]; rewrite BE; reflexivity|]. cbn. eapply (runs_ret rt cl). ev.
  Qed.

  Lemma check_all : forall l j b b', dec_check l j b = Ok b' -> Forall (fun c => dec_basic c = true) l.
  Proof. induction l as [|c l IH]; intros j b b' E; [constructor|]. cbn [dec_check] in E. destruct (dec_basic c) eqn:B; [|discriminate]. constructor; eauto. Qed.
  Hypothesis ALL : Forall (fun c => dec_basic c = true) s.
  Lemma in_basic : forall p c r, s = p ++ c :: r -> dec_basic c = true /\ conv ch c = c /\ 0 <= c <= 255 /\ 0 <= zlen p < zlen s.
  Proof.
    intros p c r E. destruct (in_byte p c r E) as (Hc & Hp). assert (B : dec_basic c = true) by (rewrite E in ALL; apply Forall_app in ALL; destruct ALL as (_ & X); now inversion X).
    split; [exact B|]. split; [now apply (dec_basic_conv c Hc)|]. auto.
  Qed.
  Lemma cast_char : forall c, 0 <= c <= 127 -> cast ch U32 c = c.
  Proof. intros c H. destruct CH as [-> | ->]; [|reflexivity]. unfold cast. cbn. apply u32_id. lia. Qed.
  Lemma basic_small : forall c, dec_basic c = true -> 0 <= c <= 127.
  Proof. intros c. unfold dec_basic. lia. Qed.

  Ltac sq := eapply (runs_seq rt cl mono1).
  Ltac sx := eapply (runs_exp rt cl); ev.
  Ltac u64s := repeat match goal with |- context [u64 ?z] => rewrite (u64_id z) by (unfold two64 in *; lia) end.

  (** Copying the basic code points. *)
  Lemma copy_runs : forall l p q o rest j b n i mx bias oldi w k digit t inn, s = p ++ l ++ q -> j = zlen p -> b = zlen p + zlen l -> zlen l <= zlen rest -> zlen o + zlen l <= mo ->
    exists rest', zlen rest' = zlen rest - zlen l /\
      R d_copy (mkst (vs n (Some (zlen o)) i mx bias oldi w k digit t (Some b) (Some j) inn) (ms (map Some o ++ rest)))
        (Norm (mkst (vs n (Some (zlen (o ++ l))) i mx bias oldi w k digit t (Some b) (Some b) inn) (ms (map Some (o ++ l) ++ rest')))).
  Proof.
    induction l as [|c l IH]; intros p q o rest j b n i mx bias oldi w k digit t inn E J B LR LO.
    - exists rest. rewrite app_nil_r. change (zlen (@nil Z)) with 0 in *. split; [lia|]. assert (j = b) as -> by lia. eapply (runs_loop_end rt cl mono1); [ev|]. cc. rewrite Z.ltb_irrefl. reflexivity.
    - destruct (in_basic p c (l ++ q) E) as (Bc & Cc & Hc & Hp). pose proof (in_cell p c (l ++ q) E) as IC. rewrite <- J, Cc in IC. rewrite zlen_cons in *.
      assert (L0 : 0 <= zlen l) by (unfold zlen; lia). assert (O0 : 0 <= zlen o) by (unfold zlen; lia).
      destruct rest as [|x rest]; [change (zlen (@nil (option Z))) with 0 in LR; lia|]. rewrite zlen_cons in LR.
      destruct (IH (p ++ [c]) q (o ++ [c]) rest (j + 1) b n i mx bias oldi w k digit t inn) as (rest' & LR' & X);
        [rewrite <- app_assoc; exact E | rewrite zlen_app, J; reflexivity | rewrite zlen_app; change (zlen [c]) with 1; lia | lia | rewrite zlen_app; change (zlen [c]) with 1; lia |].
      exists rest'. split; [rewrite zlen_cons; lia|]. replace ((o ++ [c]) ++ l) with (o ++ c :: l) in X by (rewrite <- app_assoc; reflexivity).
      assert (LT : (j <? b) = true) by lia.
      eapply (runs_loop_next rt cl mono1); [ev| | | |exact X].
      + cc. rewrite LT. discriminate.
      + exists O. cbn [exec d_copy loop_body]. split; [|discriminate]. cbn. rewrite IC. cc. rewrite set_cell_out. cbn.
        instantiate (1 := mkst (vs n (Some (zlen (o ++ [c]))) i mx bias oldi w k digit t (Some b) (Some j) inn) (ms (map Some (o ++ [c]) ++ rest))).
        rewrite zlen_app. change (zlen [c]) with 1. rewrite (u32_id (zlen o + 1)) by lia. rewrite map_app, <- app_assoc. cbn [map app].
        change (if fits ch U32 then c else u32 c) with (cast ch U32 c). rewrite cast_char by (apply basic_small; exact Bc). reflexivity.
      + sx. u64s. reflexivity.
  Qed.

  Lemma digit_small : forall c, 0 <= decode_digit c < 36.
  Proof. intros c. unfold decode_digit. repeat match goal with |- context [if ?b then _ else _] => destruct b eqn:? end; lia. Qed.
  Lemma thresh_range : forall k bias, 0 <= thresh k bias < 4294967296.
  Proof. intros k bias. unfold thresh. pose proof (u32_range (k - bias)). destruct (k <=? bias); [lia|]. destruct (u32 (bias + 26) <=? k); lia. Qed.
  Lemma thresh_runs : forall m n out i mx bias oldi w k digit t b j inn,
    R (nth 5 (flat (loop_body d_inner)) SSkip) (mkst (vs n out i mx (Some bias) oldi w (Some k) digit t b j inn) m) (Norm (mkst (vs n out i mx (Some bias) oldi w (Some k) digit (Some (thresh k bias)) b j inn) m)).
  Proof.
    intros. eapply (runs_exp rt cl) with (v := (U32, thresh k bias)). exists O. unfold thresh. cc. destruct (k <=? bias); cc; [reflexivity|].
    destruct (u32 (bias + 26) <=? k); cc; reflexivity.
  Qed.

  (** One generalized variable-length integer. *)
  Lemma varint_runs : forall l p bias i w k buf n out mx oldi digit t b j, s = p ++ l -> 0 <= i < 4294967296 -> 0 <= w < 4294967296 -> 0 <= k < 4294967296 ->
    match dec_varint l bias i w k with
    | Ok (i', r) => exists p' w' k' d' t', s = p' ++ r /\ zlen p < zlen p' /\ 0 <= i' < 4294967296 /\
        R d_inner (mkst (vs n out (Some i) mx (Some bias) oldi (Some w) (Some k) digit t b j (Some (zlen p))) (ms buf))
          (Norm (mkst (vs n out (Some i') mx (Some bias) oldi w' k' d' t' b j (Some (zlen p'))) (ms buf)))
    | Fail rc => exists v, R d_inner (mkst (vs n out (Some i) mx (Some bias) oldi (Some w) (Some k) digit t b j (Some (zlen p))) (ms buf)) (Ret (I32, rc) (mkst v (ms buf)))
    | _ => True
    end.
  Proof.
    induction l as [|c l IH]; intros p bias i w k buf n out mx oldi digit t b j E Hi Hw Hk; cbn [dec_varint].
    - rewrite app_nil_r in E. subst p. eexists. eapply (runs_loop_stop rt cl mono1 _ _ _ _ _ _ (Ret _ _)); [ev| | |exact I]; [cc; discriminate|].
      eapply (runs_seq_stop rt cl); [|exact I]. eapply (runs_if rt cl mono1); [ev|]. cc. rewrite Z.leb_refl. cbn. eapply (runs_ret rt cl). ev.
    - destruct (in_basic p c l E) as (Bc & Cc & Hc & Hp). pose proof (in_cell p c l E) as IC. rewrite Cc in IC. pose proof (digit_small c) as DS.
      assert (GE : (zlen s <=? zlen p) = false) by lia. assert (P1 : zlen (p ++ [c]) = zlen p + 1) by (rewrite zlen_app; reflexivity).
      set (d := decode_digit c) in *. replace (36 <=? d) with false by lia.
      (* up to the overflow test *)
      assert (X1 : forall rest o, R rest (mkst (vs n out (Some i) mx (Some bias) oldi (Some w) (Some k) (Some d) t b j (Some (zlen p + 1))) (ms buf)) o ->
        R (SSeq (nth 0 (flat (loop_body d_inner)) SSkip) (SSeq (nth 1 (flat (loop_body d_inner)) SSkip) (SSeq (nth 2 (flat (loop_body d_inner)) SSkip) rest)))
          (mkst (vs n out (Some i) mx (Some bias) oldi (Some w) (Some k) digit t b j (Some (zlen p))) (ms buf)) o).
      { intros rest o X. sq; [eapply (runs_if rt cl mono1); [ev|]; cc; rewrite GE; cbn; apply runs_skip|].
        sq; [|sq; [|exact X]].
        - eapply (runs_exp rt cl). exists O. cbn. rewrite IC. cbn. rewrite (c_digit ch c) by (auto; lia). cc. u64s. reflexivity.
        - eapply (runs_if rt cl mono1); [ev|]. cc. fold d. replace (36 <=? d) with false by lia. cbn. apply runs_skip. }
      destruct (w =? 0) eqn:W0; [exact I|]. assert (Q : 0 <= (maxint - i) / w < 4294967296) by (apply div_range; unfold maxint; lia).
      destruct ((maxint - i) / w <? d) eqn:OV.
      { eexists. eapply (runs_loop_stop rt cl mono1 _ _ _ _ _ _ (Ret _ _)); [ev| | |exact I]; [cc; discriminate|]. apply X1.
        eapply (runs_seq_stop rt cl); [|exact I]. eapply (runs_if rt cl mono1).
        - ev. rewrite W0. cc. rewrite (u32_id (4294967295 - i)) by lia. rewrite quot_div by lia. rewrite (u32_id (_ / _)) by exact Q. reflexivity.
        - change 4294967295 with maxint. cc. rewrite OV. cbn. eapply (runs_ret rt cl). ev. }
      assert (X2 : forall rest o, R rest (mkst (vs n out (Some (u32 (i + u32 (d * w)))) mx (Some bias) oldi (Some w) (Some k) (Some d) (Some (thresh k bias)) b j (Some (zlen p + 1))) (ms buf)) o ->
        R (SSeq (nth 3 (flat (loop_body d_inner)) SSkip) (SSeq (nth 4 (flat (loop_body d_inner)) SSkip) (SSeq (nth 5 (flat (loop_body d_inner)) SSkip) rest)))
          (mkst (vs n out (Some i) mx (Some bias) oldi (Some w) (Some k) (Some d) t b j (Some (zlen p + 1))) (ms buf)) o).
      { intros rest o X. sq.
        { eapply (runs_if rt cl mono1).
          - ev. rewrite W0. cc. rewrite (u32_id (4294967295 - i)) by lia. rewrite quot_div by lia. rewrite (u32_id (_ / _)) by exact Q. reflexivity.
          - change 4294967295 with maxint. cc. rewrite OV. cbn. apply runs_skip. }
        sq; [sx|]. sq; [|exact X]. apply thresh_runs. }
      set (i' := u32 (i + u32 (d * w))) in *. set (th := thresh k bias) in *. pose proof (thresh_range k bias) as TR. fold th in TR.
      destruct (d <? th) eqn:BR.
      { exists (p ++ [c]), (Some w), (Some k), (Some d), (Some th). split; [rewrite <- app_assoc; exact E|]. split; [lia|]. split; [apply u32_range|]. rewrite P1.
        eapply (runs_loop_stop rt cl mono1 _ _ _ _ _ _ (Brk _)); [ev| | |exact I]; [cc; discriminate|]. apply X1, X2.
        eapply (runs_seq_stop rt cl); [|exact I]. eapply (runs_if rt cl mono1); [ev|]. cc. rewrite BR. cbn. apply runs_brk. }
      destruct (u32 (36 - th) =? 0) eqn:T0; [exact I|]. pose proof (u32_range (36 - th)) as UR.
      assert (Q2 : 0 <= maxint / u32 (36 - th) < 4294967296) by (apply div_range; unfold maxint; lia).
      destruct (maxint / u32 (36 - th) <? w) eqn:OV2.
      { eexists. eapply (runs_loop_stop rt cl mono1 _ _ _ _ _ _ (Ret _ _)); [ev| | |exact I]; [cc; discriminate|]. apply X1, X2.
        sq; [eapply (runs_if rt cl mono1); [ev|]; cc; rewrite BR; cbn; apply runs_skip|].
        eapply (runs_seq_stop rt cl); [|exact I]. eapply (runs_if rt cl mono1).
        - ev. rewrite T0. cc. rewrite quot_div by lia. rewrite (u32_id (_ / _)) by exact Q2. reflexivity.
        - change 4294967295 with maxint. cc. rewrite OV2. cbn. eapply (runs_ret rt cl). ev. }
      specialize (IH (p ++ [c]) bias i' (u32 (w * u32 (36 - th))) (u32 (k + 36)) buf n out mx oldi (Some d) (Some th) b j ltac:(rewrite <- app_assoc; exact E) (u32_range _) (u32_range _) (u32_range _)).
      assert (X3 : forall o, R d_inner (mkst (vs n out (Some i') mx (Some bias) oldi (Some (u32 (w * u32 (36 - th)))) (Some (u32 (k + 36))) (Some d) (Some th) b j (Some (zlen p + 1))) (ms buf)) o ->
        R d_inner (mkst (vs n out (Some i) mx (Some bias) oldi (Some w) (Some k) digit t b j (Some (zlen p))) (ms buf)) o).
      { intros o X. eapply (runs_loop_next rt cl mono1); [ev| | | |exact X]; [cc; discriminate| |].
        - apply X1, X2. sq; [eapply (runs_if rt cl mono1); [ev|]; cc; rewrite BR; cbn; apply runs_skip|].
          sq; [eapply (runs_if rt cl mono1)|].
          + ev. rewrite T0. cc. rewrite quot_div by lia. rewrite (u32_id (_ / _)) by exact Q2. reflexivity.
          + change 4294967295 with maxint. cc. rewrite OV2. cbn. apply runs_skip.
          + sx.
        - sx. }
      rewrite P1 in IH. destruct (dec_varint l bias i' _ _) as [[i2 r]|rc| |]; [| |exact I|exact I].
      + destruct IH as (p' & w' & k' & d' & t' & A1 & A2 & A3 & A4). exists p', w', k', d', t'. split; [exact A1|]. split; [lia|]. split; [exact A3|]. apply X3. exact A4.
      + destruct IH as (v & A). exists v. apply X3. exact A.
  Qed.

  Lemma zlen_firstn : forall A (l : list A) i, 0 <= i <= zlen l -> zlen (firstn (Z.to_nat i) l) = i.
  Proof. intros A l i H. unfold zlen in *. rewrite firstn_length. lia. Qed.
  Lemma zlen_skipn : forall A (l : list A) i, 0 <= i <= zlen l -> zlen (skipn (Z.to_nat i) l) = zlen l - i.
  Proof. intros A l i H. unfold zlen in *. rewrite skipn_length. lia. Qed.

  Lemma main_runs : forall fuel inp p o rest n i bias oldi w k digit t b j, s = p ++ inp -> zlen (map Some o ++ rest) = cap -> zlen o <= mo ->
    0 <= n < 4294967296 -> 0 <= i < 4294967296 -> 0 <= bias < 4294967296 ->
    let st := mkst (vs (Some n) (Some (zlen o)) (Some i) (Some mo) (Some bias) oldi w k digit t b j (Some (zlen p))) (ms (map Some o ++ rest)) in
    match dec_main fuel cap mo inp o n i bias with
    | Ok o' => exists rest' n' i' bias' oldi' w' k' d' t' inn', zlen (map Some o' ++ rest') = cap /\ zlen o' <= mo /\
        R d_main st (Norm (mkst (vs n' (Some (zlen o')) i' (Some mo) bias' oldi' w' k' d' t' b j inn') (ms (map Some o' ++ rest'))))
    | Fail rc => exists v buf, zlen buf = cap /\ R d_main st (Ret (I32, rc) (mkst v (ms buf)))
    | _ => True
    end.
  Proof.
    induction fuel as [|fuel IH]; intros inp p o rest n i bias oldi w k digit t b j E HB HO Hn Hi Hbi st.
    { destruct inp as [|c inp]; cbn [dec_main]; [|exact I]. rewrite app_nil_r in E. subst p. exists rest, (Some n), (Some i), (Some bias), oldi, w, k, digit, t, (Some (zlen s)).
      split; [exact HB|]. split; [exact HO|]. eapply (runs_loop_end rt cl mono1); [ev|]. cc. rewrite Z.ltb_irrefl. reflexivity. }
    destruct inp as [|c inp].
    { cbn [dec_main]. rewrite app_nil_r in E. subst p. exists rest, (Some n), (Some i), (Some bias), oldi, w, k, digit, t, (Some (zlen s)).
      split; [exact HB|]. split; [exact HO|]. eapply (runs_loop_end rt cl mono1); [ev|]. cc. rewrite Z.ltb_irrefl. reflexivity. }
    cbn [dec_main]. assert (O0 : 0 <= zlen o) by (unfold zlen; lia).
    destruct (in_basic p c inp E) as (_ & _ & _ & Hp). assert (LT : (zlen p <? zlen s) = true) by lia.
    pose proof (varint_runs (c :: inp) p bias i 1 36 (map Some o ++ rest) (Some n) (Some (zlen o)) (Some mo) (Some i) digit t b j E Hi ltac:(lia) ltac:(lia)) as V.
    assert (X0 : forall o', R d_inner (mkst (vs (Some n) (Some (zlen o)) (Some i) (Some mo) (Some bias) (Some i) (Some 1) (Some 36) digit t b j (Some (zlen p))) (ms (map Some o ++ rest))) o' ->
      R (nth 0 (flat (loop_body d_main)) SSkip) st o').
    { intros o' X. sq; [|exact X]. sq; [sx|]. sq; [sx|]. sx. }
    assert (STOP : forall o', leaves o' -> (forall x, o' <> Brk x) -> R (loop_body d_main) st o' -> R d_main st o').
    { intros o' So Nb X. assert (EQ : o' = match o' with Brk x => Norm x | x => x end) by (destruct o'; try reflexivity; elim (Nb st0); reflexivity). rewrite EQ.
      eapply (runs_loop_stop rt cl mono1); [ev| |exact X|exact So]. cc. rewrite LT. discriminate. }
    destruct (dec_varint (c :: inp) bias i 1 36) as [[i1 r]|rc| |]; cbn [bind]; [| |exact I|exact I].
    2: { destruct V as (v & V). exists v, (map Some o ++ rest). split; [exact HB|]. apply STOP; [exact I|discriminate|]. eapply (runs_seq_stop rt cl); [|exact I]. apply X0. exact V. }
    destruct V as (p' & w' & k' & d' & t' & E' & Lp & Hi1 & V). rewrite (u32_id (zlen o + 1)) by lia.
    destruct (adapt (u32 (i1 - i)) (zlen o + 1) (i =? 0)) as [bias'|rc| |] eqn:AD; cbn [bind]; [| |exact I|exact I].
    2: { exfalso. unfold adapt in AD. destruct (zlen o + 1 =? 0); [discriminate|]. revert AD. generalize (0 : Z) at 1. generalize (u32 ((if i =? 0 then u32 (i1 - i) / 700 else Z.shiftr (u32 (i1 - i)) 1) + (if i =? 0 then u32 (i1 - i) / 700 else Z.shiftr (u32 (i1 - i)) 1) / (zlen o + 1))).
         generalize 32%nat. clear. induction n as [|n IHn]; intros d kk; cbn [adapt_loop]; [discriminate|]. destruct (455 <? d); [apply IHn|]. destruct (u32 (d + 38) =? 0); discriminate. }
    assert (Hnp : 0 <= zlen o + 1 < 4294967296) by lia. pose proof (adapt_range _ _ _ _ (u32_range (i1 - i)) Hnp AD) as Hb'. destruct (c_adapt_ok ch _ _ _ _ (u32_range (i1 - i)) Hnp AD) as (na & CA).
    destruct (zlen o + 1 =? 0) eqn:Z0; [exact I|].
    set (st1 := mkst (vs (Some n) (Some (zlen o)) (Some i1) (Some mo) (Some bias') (Some i) w' k' d' t' b j (Some (zlen p'))) (ms (map Some o ++ rest))).
    assert (X1 : forall body o', R body st1 o' -> R (SSeq (nth 0 (flat (loop_body d_main)) SSkip) (SSeq (nth 1 (flat (loop_body d_main)) SSkip) body)) st o').
    { intros body o' X. sq; [apply X0; exact V|]. sq; [|exact X]. eapply (runs_exp rt cl). exists na. cbn. uc. rewrite (u32_id (zlen o + 1)) by lia.
      rewrite CA. cbn. reflexivity. }
    assert (Q1 : 0 <= i1 / (zlen o + 1) < 4294967296) by (apply div_range; lia). rewrite (u32_id (maxint - n)) by (unfold maxint; lia).
    assert (EV1 : evals rt cl (EBin Gt (EBin Div (EVar "i") (EBin Add (EVar "out") (int 1))) (EBin Sub (ECast U32 (EBin Sub (int 0) (int 1))) (EVar "n"))) st1 (I32, if maxint - n <? i1 / (zlen o + 1) then 1 else 0) st1).
    { ev. rewrite (u32_id (zlen o + 1)) by lia. rewrite Z0. cc. rewrite (u32_id (4294967295 - n)) by lia. rewrite quot_div by lia. rewrite (u32_id (_ / _)) by exact Q1. reflexivity. }
    destruct (maxint - n <? i1 / (zlen o + 1)) eqn:OV.
    { eexists. exists (map Some o ++ rest). split; [exact HB|]. apply STOP; [exact I|discriminate|]. apply X1. eapply (runs_seq_stop rt cl); [|exact I].
      eapply (runs_if rt cl mono1); [exact EV1|]. cbn. eapply (runs_ret rt cl). ev. }
    set (n' := u32 (n + i1 / (zlen o + 1))). pose proof (u32_range (n + i1 / (zlen o + 1))) as Hn'. fold n' in Hn'.
    set (st2 := mkst (vs (Some n') (Some (zlen o)) (Some i1) (Some mo) (Some bias') (Some i) w' k' d' t' b j (Some (zlen p'))) (ms (map Some o ++ rest))).
    assert (X2 : forall body o', R body st2 o' -> R (SSeq (nth 2 (flat (loop_body d_main)) SSkip) (SSeq (nth 3 (flat (loop_body d_main)) SSkip) body)) st1 o').
    { intros body o' X. sq; [eapply (runs_if rt cl mono1); [exact EV1|]; cbn; apply runs_skip|]. sq; [|exact X]. eapply (runs_exp rt cl). ev.
      rewrite (u32_id (zlen o + 1)) by lia. rewrite Z0. cc. rewrite quot_div by lia. rewrite (u32_id (_ / _)) by exact Q1. reflexivity. }
    assert (EV2 : evals rt cl (EOr (EBin Gt (EVar "n") (int 1114111)) (EAnd (EBin Ge (EVar "n") (int 55296)) (EBin Le (EVar "n") (int 56319)))) st2
      (I32, if (1114111 <? n') || ((55296 <=? n') && (n' <=? 56319)) then 1 else 0) st2).
    { ev. destruct (1114111 <? n'); cc; [reflexivity|]. destruct (55296 <=? n'); cc; [|reflexivity]. destruct (n' <=? 56319); cc; reflexivity. }
    destruct ((1114111 <? n') || ((55296 <=? n') && (n' <=? 56319))) eqn:BAD.
    { eexists. exists (map Some o ++ rest). split; [exact HB|]. apply STOP; [exact I|discriminate|]. apply X1, X2. eapply (runs_seq_stop rt cl); [|exact I].
      eapply (runs_if rt cl mono1); [exact EV2|]. cbn. eapply (runs_ret rt cl). ev. }
    set (i2 := i1 mod (zlen o + 1)). assert (Hi2 : 0 <= i2 < zlen o + 1) by (apply Z.mod_pos_bound; lia).
    set (st3 := mkst (vs (Some n') (Some (zlen o)) (Some i2) (Some mo) (Some bias') (Some i) w' k' d' t' b j (Some (zlen p'))) (ms (map Some o ++ rest))).
    assert (X3 : forall body o', R body st3 o' -> R (SSeq (nth 4 (flat (loop_body d_main)) SSkip) (SSeq (nth 5 (flat (loop_body d_main)) SSkip) body)) st2 o').
    { intros body o' X. sq; [eapply (runs_if rt cl mono1); [exact EV2|]; cbn; apply runs_skip|]. sq; [|exact X]. eapply (runs_exp rt cl). ev.
      rewrite (u32_id (zlen o + 1)) by lia. rewrite Z0. cc. rewrite Z.rem_mod_nonneg by lia. fold i2. rewrite (u32_id i2) by lia. reflexivity. }
    destruct (mo <=? zlen o) eqn:BIG.
    { eexists. exists (map Some o ++ rest). split; [exact HB|]. apply STOP; [exact I|discriminate|]. apply X1, X2, X3. eapply (runs_seq_stop rt cl); [|exact I].
      eapply (runs_if rt cl mono1); [ev|]. cc. rewrite BIG. cbn. eapply (runs_ret rt cl). ev. }
    rewrite zlen_app, zlen_map in HB. destruct rest as [|x rest]; [change (zlen (@nil (option Z))) with 0 in HB; lia|]. rewrite zlen_cons in HB. assert (R0 : 0 <= zlen rest) by (unfold zlen; lia).
    unfold insert_at. replace ((zlen o + 1 <=? cap) && (0 <=? i2) && (i2 <=? zlen o)) with true by (symmetry; repeat (apply andb_true_intro; split); lia). cbn [bind].
    set (oa := firstn (Z.to_nat i2) o). set (ob := skipn (Z.to_nat i2) o). assert (OE : o = oa ++ ob) by (symmetry; apply firstn_skipn).
    assert (La : zlen oa = i2) by (apply zlen_firstn; lia). assert (Lb : zlen ob = zlen o - i2) by (apply zlen_skipn; lia).
    destruct (insert_move (map Some oa) (map Some ob) x rest n') as (m & M1 & M2). rewrite !zlen_map, La, Lb in M1. rewrite zlen_map, La in M2.
    assert (BUF : map Some o ++ x :: rest = map Some oa ++ map Some ob ++ x :: rest) by (rewrite OE at 1; rewrite map_app, <- app_assoc; reflexivity).
    assert (BUF' : map Some oa ++ Some n' :: map Some ob ++ rest = map Some (oa ++ n' :: ob) ++ rest) by (rewrite map_app; cbn [map]; rewrite <- app_assoc; reflexivity).
    assert (LO' : zlen (oa ++ n' :: ob) = zlen o + 1) by (rewrite zlen_app, zlen_cons, La, Lb; lia).
    rewrite (u32_id (i2 + 1)) by lia.
    assert (X4 : R (SSeq (nth 6 (flat (loop_body d_main)) SSkip) (SSeq (nth 7 (flat (loop_body d_main)) SSkip) (nth 8 (flat (loop_body d_main)) SSkip))) st3
      (Norm (mkst (vs (Some n') (Some (zlen o)) (Some (i2 + 1)) (Some mo) (Some bias') (Some i) w' k' d' t' b j (Some (zlen p'))) (ms (map Some (oa ++ n' :: ob) ++ rest))))).
    { sq; [eapply (runs_if rt cl mono1); [ev|]; cc; rewrite BIG; cbn; apply runs_skip|]. eapply (runs_seq rt cl mono1) with (st' := mkst (vars st3) (ms m)).
      - exists O. split; [|discriminate]. cbn. rewrite (u32_id (zlen o - i2)) by lia. uc. u64s. change (4 =? 4) with true. rewrite Z.mod_mul, Z.div_mul by lia. cbn.
        rewrite BUF. rewrite ?Z.add_0_r. rewrite M1. reflexivity.
      - exists O. split; [|discriminate]. cbn. rewrite M2. cbn. uc. rewrite (u32_id (i2 + 1)) by lia. rewrite BUF'. reflexivity. }
    specialize (IH r p' (oa ++ n' :: ob) rest n' (i2 + 1) bias' (Some i) w' k' d' t' b j E' ltac:(rewrite zlen_app, zlen_map, LO'; lia) ltac:(lia) Hn' ltac:(lia) Hb').
    cbv zeta in IH. rewrite LO' in IH.
    assert (X5 : forall o', R d_main (mkst (vs (Some n') (Some (zlen o + 1)) (Some (i2 + 1)) (Some mo) (Some bias') (Some i) w' k' d' t' b j (Some (zlen p'))) (ms (map Some (oa ++ n' :: ob) ++ rest))) o' -> R d_main st o').
    { intros o' X. eapply (runs_loop_next rt cl mono1); [ev| | | |exact X].
      - cc. rewrite LT. discriminate.
      - apply X1, X2, X3. exact X4.
      - sx. rewrite (u32_id (zlen o + 1)) by lia. reflexivity. }
    destruct (dec_main fuel cap mo r (oa ++ n' :: ob) n' (i2 + 1) bias') as [o'|rc| |]; [| |exact I|exact I].
    - destruct IH as (rest' & n1 & i3 & b1 & ol & w1 & k1 & d1 & t1 & in1 & A1 & A2 & A3). exists rest', n1, i3, b1, ol, w1, k1, d1, t1, in1. split; [exact A1|]. split; [exact A2|]. apply X5. exact A3.
    - destruct IH as (v & buf & A1 & A2). exists v, buf. split; [exact A1|]. apply X5. exact A2.
  Qed.
End Decode.
