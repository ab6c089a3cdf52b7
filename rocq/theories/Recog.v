(** Recognizers for the format of SpecScan.v, to show that the files of the
    distribution are in it. *)
From Coq Require Import String.
From Verif Require Import Base DataTypes SpecScan.
Local Open Scope list_scope.
Local Open Scope Z_scope.

Fixpoint cut (d : Z) (s : list Z) : list Z * option (list Z) :=
  match s with
  | [] => ([], None)
  | c :: r => if c =? d then ([], Some r) else let (a, b) := cut d r in (c :: a, b)
  end.
Definition isblank (c : Z) : bool := (c =? 32) || (c =? 9) || (c =? 13).
Fixpoint lead (s : list Z) : list Z * list Z :=
  match s with
  | c :: r => if isblank c then let (a, b) := lead r in (c :: a, b) else ([], s)
  | [] => ([], [])
  end.
Definition strip (s : list Z) : list Z := rev (snd (lead (rev (snd (lead s))))).
Definition digit (c : Z) : option Z :=
  if (48 <=? c) && (c <=? 57) then Some (c - 48)
  else if (65 <=? c) && (c <=? 70) then Some (c - 55)
  else if (97 <=? c) && (c <=? 102) then Some (c - 87)
  else None.
Fixpoint num (v : Z) (s : list Z) : option Z :=
  match s with
  | [] => Some v
  | c :: r => match digit c with
              | Some d => if 16 * v + d <? 2 ^ 32 then num (16 * v + d) r else None
              | None => None
              end
  end.
Definition number (s : list Z) : option Z := match s with [] => None | _ => num 0 s end.
Definition drop_sep (sep s : list Z) : option (list Z) :=
  match sep, s with
  | [a], x :: r => if x =? a then Some r else None
  | [a; b], x :: y :: r => if (x =? a) && (y =? b) then Some r else None
  | _, _ => None
  end.
Definition range (sep : list Z) (s : list Z) : option (Z * Z) :=
  match cut (hd 0 sep) s with
  | (a, None) => match number a with Some v => Some (v, v) | None => None end
  | (a, Some r) =>
      match drop_sep sep (hd 0 sep :: r) with
      | Some b => match number a, number b with Some lo, Some hi => Some (lo, hi) | _, _ => None end
      | None => None
      end
  end.
Fixpoint seqn (fuel : nat) (s : list Z) : option (list Z) :=
  match fuel with
  | O => None
  | S fuel' =>
      match cut 32 s with
      | (a, None) => match number a with Some v => Some [v] | None => None end
      | (a, Some r) => match number a, seqn fuel' r with Some v, Some m => Some (v :: m) | _, _ => None end
      end
  end.
Fixpoint eqs (a b : list Z) : bool :=
  match a, b with
  | [], [] => true
  | x :: a', y :: b' => (x =? y) && eqs a' b'
  | _, _ => false
  end.
Definition statuses : list (list Z * status) :=
  Eval vm_compute in map (fun s => (bytes_of (status_name s), s)) [Valid; Mapped; Ignored; Deviation; Disallowed; Std3Mapped; Std3Valid].
Definition which {A} (l : list (list Z * A)) (s : list Z) : option A :=
  match find (fun e => eqs s (fst e)) l with Some e => Some (snd e) | None => None end.

Definition ign (s : list Z) : bool := match snd (lead s) with [] => true | c :: _ => c =? 35 end.
(** A line: what precedes the first '#', split at the first two ';'. *)
Definition idna_rec (l : list Z) : option (list row) :=
  if ign l then Some []
  else
    let (body, _) := cut 35 l in
    match cut 59 body with
    | (_, None) => None
    | (f1, Some r) =>
        let (f2, r3) := cut 59 r in
        match range dots (strip f1), which statuses (strip f2) with
        | Some (lo, hi), Some st =>
            match r3 with
            | None => Some [Row lo hi st []]
            | Some r3 =>
                let (f3, _) := cut 59 r3 in
                match strip f3 with
                | [] => Some [Row lo hi st []]
                | x => match seqn (length x) x with Some m => Some [Row lo hi st m] | None => None end
                end
            end
        | _, _ => None
        end
    end.
Definition wordchar (c : Z) : bool :=
  ((48 <=? c) && (c <=? 57)) || ((65 <=? c) && (c <=? 90)) || ((97 <=? c) && (c <=? 122)) || (c =? 95).
Definition nfc_qc : list Z := Eval vm_compute in bytes_of "NFC_QC".
Definition props_rec (l : list Z) : option (list qrow) :=
  if ign l then Some []
  else
    let (body, _) := cut 35 l in
    match cut 59 body with
    | (_, None) => None
    | (f1, Some r) =>
        let (f2, r3) := cut 59 r in
        match range dots (strip f1) with
        | Some (lo, hi) =>
            if eqs (strip f2) nfc_qc
            then match r3 with
                 | None => None
                 | Some r3 =>
                     let (f3, _) := cut 59 r3 in
                     match strip f3 with
                     | [78] => Some [Qrow lo hi QcNo]
                     | [77] => Some [Qrow lo hi QcMaybe]
                     | _ => None
                     end
                 end
            else if forallb wordchar (strip f2) then Some [] else None
        | None => None
        end
    end.
Definition props_names : list (list Z * prop) :=
  Eval vm_compute in map (fun s => (bytes_of (prop_name s), s)) [PVALID; CONTEXTJ; CONTEXTO; DISALLOWED; UNASSIGNED].
Definition csv_rec (l : list Z) : option (list prow) :=
  match cut 44 l with
  | (_, None) => None
  | (f1, Some r) =>
      match cut 44 r with
      | (_, None) => None
      | (f2, Some _) =>
          match range [45] f1, which props_names f2 with
          | Some (lo, hi), Some p => Some [Prow lo hi p]
          | _, _ => None
          end
      end
  end.

Definition clean_line (l : list Z) : bool := forallb (fun c => negb (c =? 0)) l && (zlen l <=? 1022).
Fixpoint file_rec {A} (f : list Z -> option (list A)) (fuel : nat) (t : list Z) : option (list A) :=
  match fuel with
  | O => None
  | S fuel' =>
      match t with
      | [] => Some []
      | _ =>
          let (l, r) := cut 10 t in
          if clean_line l then
            match f l with
            | None => None
            | Some x =>
                match r with
                | None => Some x
                | Some r => match file_rec f fuel' r with Some y => Some (x ++ y) | None => None end
                end
            end
          else None
      end
  end.

(** * Soundness *)
Lemma cut_none : forall d s a, cut d s = (a, None) -> s = a /\ Forall (fun c => c <> d) a.
Proof.
  induction s as [|c s IH]; cbn [cut]; intros a E; [injection E as <-; auto|].
  destruct (Z.eqb_spec c d); [discriminate|]. destruct (cut d s) as [a' b']. injection E as <- ->. destruct (IH a' eq_refl) as [-> F].
  split; [reflexivity|constructor; auto].
Qed.
Lemma cut_some : forall d s a r, cut d s = (a, Some r) -> s = a ++ d :: r /\ Forall (fun c => c <> d) a.
Proof.
  induction s as [|c s IH]; cbn [cut]; intros a r E; [discriminate|].
  destruct (Z.eqb_spec c d); [injection E as <- <-; subst; auto|]. destruct (cut d s) as [a' b']. injection E as <- ->. destruct (IH a' r eq_refl) as [-> F].
  split; [reflexivity|constructor; auto].
Qed.
Lemma isblank_spec : forall c, isblank c = true -> c = 32 \/ c = 9 \/ c = 13.
Proof. intros c H. unfold isblank in H. lia. Qed.
Lemma lead_spec : forall s a b, lead s = (a, b) -> s = a ++ b /\ blanks a.
Proof.
  unfold blanks. induction s as [|c s IH]; cbn [lead]; intros a b E; [injection E as <- <-; auto|].
  destruct (isblank c) eqn:B; [|injection E as <- <-; auto]. destruct (lead s) as [a' b']. injection E as <- <-.
  destruct (IH a' b' eq_refl) as [-> F]. split; [reflexivity|]. constructor; [now apply isblank_spec|exact F].
Qed.
Lemma blanks_rev : forall a, blanks a -> blanks (rev a).
Proof. unfold blanks. intros a F. apply Forall_forall. intros c Hc. rewrite <- in_rev in Hc. rewrite Forall_forall in F. auto. Qed.
Lemma strip_padded : forall s, padded (strip s) s.
Proof.
  intros s. unfold strip. destruct (lead s) as [a b] eqn:E1. cbn [snd]. destruct (lead (rev b)) as [a2 b2] eqn:E2. cbn [snd].
  apply lead_spec in E1, E2. destruct E1 as [-> F1], E2 as [E2 F2]. exists a, (rev a2). split; [exact F1|]. split; [now apply blanks_rev|].
  f_equal. apply (f_equal (@rev Z)) in E2. rewrite rev_involutive, rev_app_distr in E2. exact E2.
Qed.
Lemma padded_nil : forall s, padded [] s -> blanks s.
Proof. intros s (a & b & A & B & ->). unfold blanks in *. cbn [app]. apply Forall_app. auto. Qed.
Lemma digit_spec : forall c d, digit c = Some d -> hexdigit c d.
Proof.
  intros c d. unfold digit, hexdigit. destruct ((48 <=? c) && (c <=? 57)) eqn:A; [intros E; injection E as <-; lia|].
  destruct ((65 <=? c) && (c <=? 70)) eqn:B; [intros E; injection E as <-; lia|].
  destruct ((97 <=? c) && (c <=? 102)) eqn:C; [intros E; injection E as <-; lia|discriminate].
Qed.
Lemma num_spec : forall s l v n, hexnum l v -> num v s = Some n -> hexnum (l ++ s) n.
Proof.
  induction s as [|c s IH]; cbn [num]; intros l v n H E; [injection E as <-; now rewrite app_nil_r|].
  destruct (digit c) as [d|] eqn:D; [|discriminate]. destruct (16 * v + d <? 2 ^ 32) eqn:L; [|discriminate].
  replace (l ++ c :: s) with ((l ++ [c]) ++ s) by (now rewrite <- app_assoc). eapply IH; [|exact E].
  apply hex_more; [exact H|now apply digit_spec|lia].
Qed.
Lemma number_spec : forall s n, number s = Some n -> hexnum s n.
Proof.
  intros [|c s] n E; cbn [number num] in E; [discriminate|]. destruct (digit c) as [d|] eqn:D; [|discriminate].
  destruct (16 * 0 + d <? 2 ^ 32); [|discriminate]. apply (num_spec s [c] (16 * 0 + d)); [|exact E].
  replace (16 * 0 + d) with d by lia. apply hex_one. now apply digit_spec.
Qed.
Lemma drop_sep_spec : forall sep s r, drop_sep sep s = Some r -> s = sep ++ r.
Proof.
  intros [|a [|b [|? ?]]] s r E; cbn [drop_sep] in E; try discriminate; destruct s as [|x s]; try discriminate.
  - destruct (Z.eqb_spec x a); [|discriminate]. injection E as <-. now subst.
  - destruct s as [|y s]; [discriminate|]. destruct (Z.eqb_spec x a); [|discriminate]. destruct (Z.eqb_spec y b); [|discriminate].
    cbn [andb] in E. injection E as <-. now subst.
Qed.
Lemma range_spec : forall sep s lo hi, range sep s = Some (lo, hi) -> range_text sep s lo hi.
Proof.
  intros sep s lo hi E. unfold range in E. destruct (cut (hd 0 sep) s) as [a [r|]] eqn:C.
  - apply cut_some in C. destruct C as [-> _]. destruct (drop_sep sep (hd 0 sep :: r)) as [b|] eqn:D; [|discriminate].
    apply drop_sep_spec in D. rewrite D. destruct (number a) eqn:NA; [|discriminate]. destruct (number b) eqn:NB; [|discriminate].
    injection E as <- <-. apply range_two; now apply number_spec.
  - apply cut_none in C. destruct C as [-> _]. destruct (number a) eqn:NA; [|discriminate]. injection E as <- <-. apply range_one. now apply number_spec.
Qed.
Lemma seqn_spec : forall fuel s m, seqn fuel s = Some m -> sequence s m.
Proof.
  induction fuel as [|fuel IH]; cbn [seqn]; intros s m E; [discriminate|]. destruct (cut 32 s) as [a [r|]] eqn:C.
  - apply cut_some in C. destruct C as [-> _]. destruct (number a) eqn:NA; [|discriminate]. destruct (seqn fuel r) eqn:R; [|discriminate].
    injection E as <-. apply (seq_more a z [32] r l); [now apply number_spec|unfold blanks; auto|discriminate|auto].
  - apply cut_none in C. destruct C as [-> _]. destruct (number a) eqn:NA; [|discriminate]. injection E as <-. apply seq_one. now apply number_spec.
Qed.
Lemma eqs_spec : forall a b, eqs a b = true <-> a = b.
Proof.
  induction a as [|x a IH]; intros [|y b]; cbn [eqs]; split; try discriminate; auto.
  - rewrite Bool.andb_true_iff, Z.eqb_eq, IH. intros [-> ->]. reflexivity.
  - intros E. injection E as -> ->. rewrite Z.eqb_refl. now apply IH.
Qed.
Lemma which_spec : forall A (l : list (list Z * A)) s a, which l s = Some a -> In (s, a) l.
Proof.
  intros A l s a E. unfold which in E. destruct (find _ l) as [[k v]|] eqn:F; [|discriminate]. injection E as <-.
  apply find_some in F. destruct F as [I E]. cbn [fst] in E. apply eqs_spec in E. now subst.
Qed.
Lemma which_status : forall s st, which statuses s = Some st -> s = bytes_of (status_name st).
Proof.
  intros s st E. apply which_spec in E. change statuses with (map (fun s => (bytes_of (status_name s), s)) [Valid; Mapped; Ignored; Deviation; Disallowed; Std3Mapped; Std3Valid]) in E.
  apply in_map_iff in E. destruct E as (x & E & _). congruence.
Qed.
Lemma which_prop : forall s p, which props_names s = Some p -> s = bytes_of (prop_name p).
Proof.
  intros s st E. apply which_spec in E. change props_names with (map (fun s => (bytes_of (prop_name s), s)) [PVALID; CONTEXTJ; CONTEXTO; DISALLOWED; UNASSIGNED]) in E.
  apply in_map_iff in E. destruct E as (x & E & _). congruence.
Qed.
Lemma ign_spec : forall s, ign s = true -> ignorable s.
Proof.
  intros s E. unfold ign in E. destruct (lead s) as [a b] eqn:L. cbn [snd] in E. apply lead_spec in L. destruct L as [-> F].
  destruct b as [|c b]; [left; now rewrite app_nil_r|]. right. exists a, b. split; [exact F|]. f_equal. f_equal. lia.
Qed.
(** The comment, and further fields. *)
Definition comment (o : option (list Z)) : list Z := match o with Some r => 35 :: r | None => [] end.
Lemma cut_comment : forall l a o, cut 35 l = (a, o) -> l = a ++ comment o.
Proof. intros l a [r|] E; [apply cut_some in E|apply cut_none in E]; destruct E as [-> _]; cbn [comment]; [reflexivity|now rewrite app_nil_r]. Qed.
Lemma rest_comment : forall b o, rest_of_line b (comment o).
Proof. intros b [r|]; cbn [comment]; [right; left; eauto|left; reflexivity]. Qed.
Definition further (o : option (list Z)) : list Z := match o with Some r => 59 :: r | None => [] end.
Lemma cut_further : forall l a o, cut 59 l = (a, o) -> l = a ++ further o.
Proof. intros l a [r|] E; [apply cut_some in E|apply cut_none in E]; destruct E as [-> _]; cbn [further]; [reflexivity|now rewrite app_nil_r]. Qed.
Lemma rest_further : forall o c, rest_of_line true (further o ++ comment c).
Proof. intros [r|] c; cbn [further app]; [right; right; eauto|apply rest_comment]. Qed.

Lemma idna_rec_spec : forall l r, idna_rec l = Some r -> or_ignorable idna_line l r.
Proof.
  intros l r E. unfold idna_rec in E. destruct (ign l) eqn:I; [injection E as <-; apply no_line; now apply ign_spec|]. apply a_line.
  destruct (cut 35 l) as [body o] eqn:CB. apply cut_comment in CB. subst l.
  destruct (cut 59 body) as [f1 [r2|]] eqn:C1; [|discriminate]. apply cut_some in C1. destruct C1 as [-> _].
  destruct (cut 59 r2) as [f2 r3] eqn:C2. apply cut_further in C2. subst r2.
  destruct (range dots (strip f1)) as [[lo hi]|] eqn:R; [|discriminate]. apply range_spec in R.
  destruct (which statuses (strip f2)) as [st|] eqn:W; [|discriminate]. apply which_status in W.
  pose proof (strip_padded f1) as P1. pose proof (strip_padded f2) as P2. rewrite W in P2.
  rewrite <- app_assoc. cbn [app]. rewrite <- app_assoc.
  destruct r3 as [r3|]; cbn [further app].
  - destruct (cut 59 r3) as [f3 r4] eqn:C3. apply cut_further in C3. subst r3. rewrite <- app_assoc. pose proof (strip_padded f3) as P3.
    destruct (strip f3) as [|c x] eqn:S3.
    + injection E as <-. eapply idna_empty; [exact R|exact P1|exact P2|now apply padded_nil|apply rest_further].
    + destruct (seqn (length (c :: x)) (c :: x)) as [m|] eqn:Q; [|discriminate]. injection E as <-. apply seqn_spec in Q.
      eapply idna_mapped; [exact R|exact P1|exact P2|exact Q|exact P3|apply rest_further].
  - injection E as <-. eapply idna_unmapped; [exact R|exact P1|exact P2|apply rest_comment].
Qed.
Lemma props_rec_spec : forall l r, props_rec l = Some r -> or_ignorable props_line l r.
Proof.
  intros l r E. unfold props_rec in E. destruct (ign l) eqn:I; [injection E as <-; apply no_line; now apply ign_spec|]. apply a_line.
  destruct (cut 35 l) as [body o] eqn:CB. apply cut_comment in CB. subst l.
  destruct (cut 59 body) as [f1 [r2|]] eqn:C1; [|discriminate]. apply cut_some in C1. destruct C1 as [-> _].
  destruct (cut 59 r2) as [f2 r3] eqn:C2. apply cut_further in C2. subst r2.
  destruct (range dots (strip f1)) as [[lo hi]|] eqn:R; [|discriminate]. apply range_spec in R.
  pose proof (strip_padded f1) as P1. pose proof (strip_padded f2) as P2.
  rewrite <- app_assoc. cbn [app]. rewrite <- app_assoc.
  destruct (eqs (strip f2) nfc_qc) eqn:Q.
  - apply eqs_spec in Q. change nfc_qc with (bytes_of "NFC_QC") in Q. rewrite Q in P2.
    destruct r3 as [r3|]; [|discriminate]. cbn [further app].
    destruct (cut 59 r3) as [f3 r4] eqn:C3. apply cut_further in C3. subst r3. rewrite <- app_assoc. pose proof (strip_padded f3) as P3.
    destruct (Z.eq_dec (hd 0 (strip f3)) 78) as [A|A]; [|destruct (Z.eq_dec (hd 0 (strip f3)) 77) as [B|B]].
    + destruct (strip f3) as [|x [|? ?]]; cbn [hd] in A; [discriminate|subst x|subst x; discriminate].
      injection E as <-. eapply (props_qc _ _ _ _ _ _ _ QcNo); [exact R|exact P1|exact P2|exact P3|apply rest_further].
    + destruct (strip f3) as [|x [|? ?]]; cbn [hd] in B; [discriminate|subst x|subst x; discriminate].
      injection E as <-. eapply (props_qc _ _ _ _ _ _ _ QcMaybe); [exact R|exact P1|exact P2|exact P3|apply rest_further].
    + exfalso. destruct (strip f3) as [|x ?]; cbn [hd] in *; [discriminate|].
      repeat match type of E with match ?z with _ => _ end = _ => destruct z; try discriminate; try congruence end.
  - destruct (forallb wordchar (strip f2)) eqn:W; [|discriminate]. injection E as <-.
    eapply (props_other _ _ (strip f2)); [exact R|exact P1| | |exact P2|].
    + apply Forall_forall. intros c Hc. rewrite forallb_forall in W. specialize (W c Hc). unfold wordchar in W. lia.
    + intros X. apply eqs_spec in X. change (bytes_of "NFC_QC") with nfc_qc in X. congruence.
    + apply rest_further.
Qed.
Lemma csv_rec_spec : forall l r, csv_rec l = Some r -> csv_line l r.
Proof.
  intros l r E. unfold csv_rec in E. destruct (cut 44 l) as [f1 [r2|]] eqn:C1; [|discriminate]. apply cut_some in C1. destruct C1 as [-> _].
  destruct (cut 44 r2) as [f2 [r3|]] eqn:C2; [|discriminate]. apply cut_some in C2. destruct C2 as [-> _].
  destruct (range [45] f1) as [[lo hi]|] eqn:R; [|discriminate]. destruct (which props_names f2) as [p|] eqn:W; [|discriminate].
  injection E as <-. apply which_prop in W. subst f2. apply csv_row. now apply range_spec.
Qed.
Lemma clean_spec : forall l, clean_line l = true -> Forall (fun c => c <> 10) l -> line_ok 1022 l.
Proof.
  intros l E F. unfold clean_line in E. apply Bool.andb_true_iff in E. destruct E as [A B]. split; [|lia].
  apply Forall_forall. intros c Hc. rewrite Forall_forall in F. rewrite forallb_forall in A. specialize (A c Hc). specialize (F c Hc). lia.
Qed.
Lemma file_rec_spec : forall A (f : list Z -> option (list A)) (line : list Z -> list A -> Prop), (forall l r, f l = Some r -> line l r) ->
  forall fuel t rows, file_rec f fuel t = Some rows -> file_of 1022 line t rows.
Proof.
  intros A f line S fuel. induction fuel as [|fuel IH]; intros t rows E; cbn [file_rec] in E; [discriminate|].
  destruct t as [|c t]; [injection E as <-; apply file_end|]. destruct (cut 10 (c :: t)) as [l r] eqn:C.
  destruct (clean_line l) eqn:CL; [|discriminate]. destruct (f l) as [x|] eqn:F; [|discriminate]. apply S in F.
  destruct r as [r|].
  - apply cut_some in C. destruct C as [-> N]. destruct (file_rec f fuel r) as [y|] eqn:R; [|discriminate]. injection E as <-.
    apply file_line; [now apply clean_spec|exact F|auto].
  - apply cut_none in C. destruct C as [C N]. rewrite C. injection E as <-. apply file_last; [congruence|now apply clean_spec|exact F].
Qed.
