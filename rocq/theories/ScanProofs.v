(** Reading of the data files: what the texts say is what the generators see. *)
From Coq Require Import String Ascii.
From Verif Require Import Base DataTypes Gentr46 Api Tables Scan SpecScan.
Local Open Scope list_scope.
Local Open Scope Z_scope.

Lemma text_bytes : forall s, text s = bytes_of s.
Proof.
  induction s as [|a s IH]; [reflexivity|]. cbn [text]. rewrite IH. unfold bytes_of. cbn [list_ascii_of_string map]. f_equal.
  destruct a as [[] [] [] [] [] [] [] []]; reflexivity.
Qed.
Lemma same_iff : forall a b, same a b = true <-> a = b.
Proof.
  induction a as [|x a IH]; intros [|y b]; cbn [same]; try (split; congruence).
  rewrite andb_true_iff, Z.eqb_eq, IH. split; [intros (-> & ->); reflexivity|intros E; split; congruence].
Qed.
Lemma same_refl : forall a, same a a = true. Proof. intros. now apply same_iff. Qed.

Definition spaces (l : list Z) : Prop := Forall (fun c => isspace c = true) l.
Lemma blanks_spaces : forall l, blanks l -> spaces l.
Proof. intros l H. eapply Forall_impl; [|exact H]. cbv beta. intros c [->|[->| ->]]; reflexivity. Qed.
Lemma skip_spaces : forall a s, spaces a -> skip_space (a ++ s) = skip_space s.
Proof. intros a s. induction 1 as [|c a H F IH]; [reflexivity|]. cbn [app skip_space]. rewrite H. exact IH. Qed.
Lemma skip_space_all : forall a, spaces a -> skip_space a = [].
Proof. intros a H. rewrite <- (app_nil_r a). now rewrite skip_spaces. Qed.
Lemma spaces_rev : forall a, spaces a -> spaces (rev a).
Proof. intros a H. apply Forall_forall. intros x Hx. rewrite <- in_rev in Hx. unfold spaces in H. rewrite Forall_forall in H. auto. Qed.
Lemma spaces_app : forall a b, spaces a -> spaces b -> spaces (a ++ b).
Proof. intros. apply Forall_app. auto. Qed.

(** No white space at either end. *)
Definition tight (x : list Z) : Prop :=
  match x with [] => True | c :: _ => isspace c = false end /\ match rev x with [] => True | c :: _ => isspace c = false end.
Lemma skip_tight : forall x s, tight x -> x <> [] -> skip_space (x ++ s) = x ++ s.
Proof. intros [|c x] s (H & _) N; [congruence|]. cbn [app skip_space]. now rewrite H. Qed.
Lemma trim : forall a x b, spaces a -> spaces b -> tight x -> chop_space (skip_space (a ++ x ++ b)) = x.
Proof.
  intros a x b A B T. rewrite skip_spaces by auto. destruct x as [|c x].
  - cbn [app]. rewrite skip_space_all by auto. reflexivity.
  - rewrite skip_tight by (auto; discriminate). unfold chop_space. rewrite rev_app_distr. rewrite skip_spaces by now apply spaces_rev.
    destruct T as (_ & T). destruct (rev (c :: x)) as [|d r] eqn:E.
    + apply (f_equal (@rev Z)) in E. rewrite rev_involutive in E. discriminate.
    + cbn [skip_space]. rewrite T, <- E. apply rev_involutive.
Qed.
Lemma nonspace_tight : forall x, Forall (fun c => isspace c = false) x -> tight x.
Proof.
  intros x H. split.
  - destruct H; auto.
  - assert (G : Forall (fun c => isspace c = false) (rev x)) by (apply Forall_forall; intros c Hc; rewrite <- in_rev in Hc; rewrite Forall_forall in H; auto).
    destruct G; auto.
Qed.
Lemma tight_app : forall x m y, tight x -> tight y -> x <> [] -> y <> [] -> tight (x ++ m ++ y).
Proof.
  intros [|c x] m y (A & _) (_ & B) Nx Ny; [congruence|]. split; [exact A|]. cbn [app]. change (c :: x ++ m ++ y) with ((c :: x) ++ m ++ y).
  rewrite app_assoc, rev_app_distr. destruct (rev y) as [|d r] eqn:E; [|exact B].
  apply (f_equal (@rev Z)) in E. rewrite rev_involutive in E. cbn [rev] in E. congruence.
Qed.

(** * Numbers *)
Lemma hexdigit_some : forall c d, hexdigit c d -> hex_digit c = Some d.
Proof.
  intros c d H. unfold hex_digit. destruct H as [(A & ->)|(A & [-> | ->])].
  - replace ((48 <=? 48 + d) && (48 + d <=? 57)) with true; [f_equal; lia|]. symmetry. apply andb_true_iff. lia.
  - replace ((48 <=? 55 + d) && (55 + d <=? 57)) with false; [|symmetry; apply andb_false_iff; lia].
    replace ((65 <=? 55 + d) && (55 + d <=? 70)) with true; [f_equal; lia|]. symmetry. apply andb_true_iff. lia.
  - replace ((48 <=? 87 + d) && (87 + d <=? 57)) with false; [|symmetry; apply andb_false_iff; lia].
    replace ((65 <=? 87 + d) && (87 + d <=? 70)) with false; [|symmetry; apply andb_false_iff; lia].
    replace ((97 <=? 87 + d) && (87 + d <=? 102)) with true; [f_equal; lia|]. symmetry. apply andb_true_iff. lia.
Qed.
Definition hexchar (c : Z) : Prop := 48 <= c <= 57 \/ 65 <= c <= 70 \/ 97 <= c <= 102.
Lemma hexdigit_char : forall c d, hexdigit c d -> hexchar c /\ 0 <= d <= 15.
Proof. unfold hexdigit, hexchar. intros. lia. Qed.
Lemma hexchar_some : forall c, hexchar c -> exists d, hex_digit c = Some d.
Proof.
  intros c H. unfold hex_digit. destruct ((48 <=? c) && (c <=? 57)) eqn:A; [eauto|]. destruct ((65 <=? c) && (c <=? 70)) eqn:B; [eauto|].
  destruct ((97 <=? c) && (c <=? 102)) eqn:D; [eauto|]. exfalso. unfold hexchar in H. rewrite andb_false_iff in A, B, D. lia.
Qed.
Lemma hexnum_chars : forall l v, hexnum l v -> Forall hexchar l /\ l <> [] /\ 0 <= v < 2 ^ 32.
Proof.
  induction 1 as [c d H|l v c d H IH D L].
  - apply hexdigit_char in H. repeat split; try lia; [|discriminate]. constructor; [tauto|constructor].
  - apply hexdigit_char in D. destruct IH as (A & B & C). repeat split; try lia.
    + apply Forall_app. split; [exact A|]. constructor; [tauto|constructor].
    + destruct l; discriminate.
Qed.
Lemma hexnum_digits : forall l v, hexnum l v -> forall s w, exists k, hex_digits (l ++ s) w = hex_digits s (w * k + v).
Proof.
  induction 1 as [c d H|l v c d H IH D L]; intros s w.
  - exists 16. cbn [app hex_digits]. rewrite (hexdigit_some _ _ H). f_equal. lia.
  - destruct (IH ([c] ++ s) w) as (k & E). exists (16 * k). rewrite <- app_assoc, E. cbn [app hex_digits]. rewrite (hexdigit_some _ _ D). f_equal. lia.
Qed.
(** What may follow a number. *)
Definition stops (s : list Z) : Prop := match s with [] => True | c :: _ => hex_digit c = None /\ c <> 120 /\ c <> 88 end.
Lemma digits_stop : forall s v, stops s -> hex_digits s v = (v, s).
Proof. intros [|c s] v H; [reflexivity|]. cbn [hex_digits]. destruct H as (-> & _). reflexivity. Qed.
Lemma hexnum_value : forall l v s, hexnum l v -> stops s -> hex_digits (l ++ s) 0 = (v, s).
Proof. intros l v s H S. destruct (hexnum_digits l v H s 0) as (k & ->). rewrite digits_stop by auto. f_equal. Qed.

Lemma hexchar_space : forall c, hexchar c -> isspace c = false.
Proof. intros c H. unfold isspace, hexchar in *. apply orb_false_iff. split; [|apply andb_false_iff]; lia. Qed.
Lemma hexnum_tight : forall l v, hexnum l v -> tight l.
Proof. intros l v H. apply nonspace_tight. destruct (hexnum_chars l v H) as (A & _). eapply Forall_impl; [|exact A]. exact hexchar_space. Qed.

Lemma scan_hex_ok : forall b l v s, spaces b -> hexnum l v -> stops s -> scan_hex (b ++ l ++ s) = Ok (Some (v, s)).
Proof.
  intros b l v s B H S. unfold scan_hex. rewrite skip_spaces by auto. destruct (hexnum_chars l v H) as (A & N & R).
  rewrite skip_tight by (try exact N; eapply hexnum_tight; eauto). pose proof (hexnum_value l v s H S) as E.
  destruct l as [|c l]; [congruence|]. cbn [app] in *. pose proof (Forall_inv A) as C.
  replace (c =? 45) with false by (symmetry; unfold hexchar in C; lia). replace (c =? 43) with false by (symmetry; unfold hexchar in C; lia).
  assert (match l ++ s with [] => c :: l ++ s | b :: r => if (c =? 48) && ((b =? 120) || (b =? 88)) then r else c :: l ++ s end = c :: l ++ s) as ->.
  { destruct (l ++ s) as [|d r] eqn:F; [reflexivity|]. replace ((c =? 48) && ((d =? 120) || (d =? 88))) with false; [reflexivity|].
    symmetry. apply andb_false_iff. right. apply orb_false_iff. destruct l as [|e l].
    - cbn [app] in F. subst s. destruct S as (_ & S1 & S2). split; lia.
    - injection F as -> _. apply Forall_inv_tail, Forall_inv in A. unfold hexchar in A. split; lia. }
  destruct (hexchar_some c C) as (d & ->). rewrite E. replace (0xffffffff <? v) with false by (symmetry; apply Z.ltb_ge; lia). reflexivity.
Qed.
Lemma scan_hex_nil : forall b, spaces b -> scan_hex b = Ok None.
Proof. intros b B. unfold scan_hex. rewrite skip_space_all by auto. reflexivity. Qed.

Lemma scan_range_ok : forall l lo hi, range_text dots l lo hi -> scan_range l = Ok (lo, hi).
Proof.
  intros l lo hi [l' c H|a b lo' hi' A B]; unfold scan_range.
  - pose proof (scan_hex_ok [] l' c [] ltac:(constructor) H I) as E. cbn [app] in E. rewrite app_nil_r in E. rewrite E. reflexivity.
  - pose proof (scan_hex_ok [] a lo' (dots ++ b) ltac:(constructor) A ltac:(repeat split; discriminate)) as E. cbn [app] in E. rewrite E. cbn [bind dots app].
    pose proof (scan_hex_ok [] b hi' [] ltac:(constructor) B I) as F. cbn [app] in F. rewrite app_nil_r in F. rewrite F. reflexivity.
Qed.
Lemma scan_mapping_ok : forall x m, sequence x m -> forall b fuel, spaces b -> (length x < fuel)%nat -> scan_mapping fuel (b ++ x) = Ok m.
Proof.
  induction 1 as [l c H|l c b r m H B N S IH]; intros b0 fuel B0 F; (destruct fuel as [|fuel]; [lia|]); cbn [scan_mapping].
  - pose proof (scan_hex_ok b0 l c [] B0 H I) as E. rewrite app_nil_r in E. rewrite E. cbn [bind].
    destruct (hexnum_chars l c H) as (_ & L & _). destruct fuel as [|fuel]; [destruct l; [congruence|cbn [length] in F; lia]|]. reflexivity.
  - rewrite (scan_hex_ok b0 l c (b ++ r)); [|auto|auto|].
    + cbn [bind]. rewrite (IH b fuel); [reflexivity|now apply blanks_spaces|]. rewrite !app_length in F. destruct (hexnum_chars l c H) as (_ & L & _).
      destruct l; [congruence|]. cbn [length] in F. lia.
    + destruct b as [|d b]; [congruence|]. cbn [app]. apply Forall_inv in B. destruct B as [->|[->| ->]]; repeat split; discriminate.
Qed.
Lemma sequence_nonempty : forall x m, sequence x m -> x <> [] /\ m <> [].
Proof.
  induction 1 as [l c H|l c b r m H B N S IH].
  - destruct (hexnum_chars l c H) as (_ & L & _). split; [auto|discriminate].
  - destruct (hexnum_chars l c H) as (_ & L & _). split; [|discriminate]. destruct l; [congruence|discriminate].
Qed.
Lemma sequence_tight : forall x m, sequence x m -> tight x.
Proof.
  induction 1 as [l c H|l c b r m H B N S IH]; [eapply hexnum_tight; eauto|].
  apply tight_app; auto; [eapply hexnum_tight; eauto| |].
  - destruct (hexnum_chars l c H) as (_ & L & _). exact L.
  - apply sequence_nonempty in S. tauto.
Qed.

(** * Fields *)
Definition inside (x : list Z) : Prop := Forall (fun c => c <> 59 /\ c <> 35) x.
Lemma find_delim_end : forall f, inside f -> find_delim f = (f, []).
Proof.
  induction 1 as [|c f (A & B) F IH]; [reflexivity|]. cbn [find_delim]. apply Z.eqb_neq in A, B. rewrite A, B, IH. reflexivity.
Qed.
Lemma find_delim_at : forall f d r, inside f -> d = 59 \/ d = 35 -> find_delim (f ++ d :: r) = (f, d :: r).
Proof.
  induction 1 as [|c f (A & B) F IH]; intros D; cbn [app find_delim].
  - replace ((d =? 59) || (d =? 35)) with true; [reflexivity|]. symmetry. apply orb_true_iff. destruct D as [->| ->]; auto.
  - apply Z.eqb_neq in A, B. rewrite A, B, (IH D). reflexivity.
Qed.
Lemma inside_app : forall a b, inside (a ++ b) <-> inside a /\ inside b.
Proof. intros. apply Forall_app. Qed.
Lemma spaces_inside : forall a, spaces a -> inside a.
Proof. intros a H. eapply Forall_impl; [|exact H]. cbv beta. intros c E. split; intros ->; discriminate. Qed.

(** [f] holds [x], surrounded by any white space. *)
Definition holds (x f : list Z) : Prop := exists a b, spaces a /\ spaces b /\ f = a ++ x ++ b.
Lemma padded_holds : forall x f, padded x f -> holds x f.
Proof. intros x f (a & b & A & B & E). exists a, b. auto using blanks_spaces. Qed.
Lemma holds_more : forall x f s, holds x f -> spaces s -> holds x (f ++ s).
Proof. intros x f s (a & b & A & B & ->) S. exists a, (b ++ s). rewrite <- !app_assoc. auto using spaces_app. Qed.
Lemma holds_inside : forall x f, holds x f -> inside x -> inside f.
Proof. intros x f (a & b & A & B & ->) X. rewrite !inside_app. auto using spaces_inside. Qed.
Lemma holds_trim : forall x f, holds x f -> tight x -> chop_space (skip_space f) = x.
Proof. intros x f (a & b & A & B & ->) T. now apply trim. Qed.

Lemma field_semi : forall x f r, holds x f -> inside x -> tight x -> x <> [] -> next_field (f ++ 59 :: r) = (Some x, r).
Proof.
  intros x f r H I T N. unfold next_field. rewrite (find_delim_at f 59 r (holds_inside x f H I)) by auto. rewrite (holds_trim x f H T).
  destruct f; reflexivity.
Qed.
Lemma field_semi0 : forall x f r, holds x f -> inside x -> tight x -> next_field (f ++ 59 :: r) = (Some x, r).
Proof.
  intros x f r H I T. unfold next_field. rewrite (find_delim_at f 59 r (holds_inside x f H I)) by auto. rewrite (holds_trim x f H T).
  destruct f; reflexivity.
Qed.
Lemma field_hash : forall x f r, holds x f -> inside x -> tight x -> next_field (f ++ 35 :: r) = (Some x, []).
Proof.
  intros x f r H I T. unfold next_field. rewrite (find_delim_at f 35 r (holds_inside x f H I)) by auto. rewrite (holds_trim x f H T).
  destruct f; reflexivity.
Qed.
Lemma field_end : forall x f, holds x f -> inside x -> tight x -> f <> [] -> next_field f = (Some x, []).
Proof.
  intros x f H I T N. unfold next_field. rewrite (find_delim_end f (holds_inside x f H I)). rewrite (holds_trim x f H T). destruct f; [congruence|reflexivity].
Qed.

Lemma hexnum_inside : forall l v, hexnum l v -> inside l.
Proof. intros l v H. destruct (hexnum_chars l v H) as (A & _). eapply Forall_impl; [|exact A]. unfold hexchar. cbv beta. lia. Qed.
Lemma range_facts : forall l lo hi, range_text dots l lo hi -> inside l /\ tight l /\ l <> [].
Proof.
  intros l lo hi [l' c H|a b lo' hi' A B].
  - destruct (hexnum_chars _ _ H) as (_ & L & _). eauto using hexnum_inside, hexnum_tight.
  - destruct (hexnum_chars _ _ A) as (_ & LA & _). destruct (hexnum_chars _ _ B) as (_ & LB & _). split; [|split].
    + rewrite !inside_app. split; [eauto using hexnum_inside|]. split; [|eauto using hexnum_inside]. repeat constructor; discriminate.
    + apply tight_app; eauto using hexnum_tight.
    + destruct a; [congruence|discriminate].
Qed.
Lemma sequence_inside : forall x m, sequence x m -> inside x.
Proof.
  induction 1 as [l c H|l c b r m H B N S IH]; [eauto using hexnum_inside|]. rewrite !inside_app.
  split; [eauto using hexnum_inside|]. split; [now apply spaces_inside, blanks_spaces|exact IH].
Qed.
Lemma word_facts : forall x, word x -> inside x /\ tight x.
Proof.
  intros x H. split.
  - eapply Forall_impl; [|exact H]. cbv beta. lia.
  - apply nonspace_tight. eapply Forall_impl; [|exact H]. cbv beta. intros c C. unfold isspace. apply orb_false_iff. split; [|apply andb_false_iff]; lia.
Qed.
Lemma wordb : forall x, forallb (fun c => ((48 <=? c) && (c <=? 57)) || ((65 <=? c) && (c <=? 90)) || ((97 <=? c) && (c <=? 122)) || (c =? 95)) x = true -> word x.
Proof.
  intros x H. rewrite forallb_forall in H. apply Forall_forall. intros c Hc. specialize (H c Hc). cbv beta in H.
  rewrite !orb_true_iff, !andb_true_iff in H. lia.
Qed.
Lemma status_word : forall st, word (bytes_of (status_name st)).
Proof. intros []; apply wordb; reflexivity. Qed.
Lemma scan_status_ok : forall st, scan_status (bytes_of (status_name st)) = Ok st.
Proof. intros []; reflexivity. Qed.

(** A line is followed by [nl]: nothing or white space. *)
Definition tail_ok (more : bool) (t : list Z) : Prop := spaces t \/ (exists r, t = 35 :: r) \/ (more = true /\ exists r, t = 59 :: r).
Lemma rest_tail : forall more t nl, rest_of_line more t -> spaces nl -> tail_ok more (t ++ nl).
Proof.
  intros more t nl [->|[(r & ->)|(M & r & ->)]] S; cbn [app]; unfold tail_ok; eauto 6.
Qed.
Lemma last_field : forall x f t, holds x f -> inside x -> tight x -> x <> [] -> tail_ok true t ->
  exists r, next_field (f ++ t) = (Some x, r).
Proof.
  intros x f t H I T N [S|[(r & ->)|(_ & r & ->)]].
  - exists []. apply field_end; auto using holds_more. destruct H as (a & b & A & B & ->). destruct a; [|discriminate]. destruct x; [congruence|discriminate].
  - exists []. now apply field_hash.
  - exists r. now apply field_semi0.
Qed.
Lemma last_field2 : forall x f t, holds x f -> inside x -> tight x -> x <> [] -> tail_ok false t ->
  next_field (f ++ t) = (Some x, []).
Proof.
  intros x f t H I T N [S|[(r & ->)|(D & _)]]; [| |discriminate].
  - apply field_end; auto using holds_more. destruct H as (a & b & A & B & ->). destruct a; [|discriminate]. destruct x; [congruence|discriminate].
  - now apply field_hash.
Qed.
(** An empty last field may also be absent altogether. *)
Lemma empty_field : forall f t, spaces f -> tail_ok true t -> exists r, next_field (f ++ t) = (Some [], r) \/ next_field (f ++ t) = (None, r).
Proof.
  intros f t F T. assert (H : holds [] f) by (exists f, []; cbn [app]; rewrite app_nil_r; repeat split; auto; constructor).
  assert (TI : tight []) by (split; exact I).
  destruct T as [S|[(r & ->)|(_ & r & ->)]].
  - destruct (f ++ t) as [|c q] eqn:E; [exists []; auto|]. exists []. left. rewrite <- E. apply field_end; auto using holds_more; [constructor|]. rewrite E. discriminate.
  - exists []. left. apply field_hash; auto. constructor.
  - exists r. left. apply field_semi0; auto. constructor.
Qed.

Lemma scan_idna_ok : forall l r nl, idna_line l r -> spaces nl -> exists x, r = [x] /\ scan_idna (l ++ nl) = Ok (Some x).
Proof.
  intros l r nl H S. destruct H as [l f1 f2 t lo hi st R P1 P2 T|l f1 f2 f3 t lo hi st R P1 P2 B T|l f1 f2 x f3 t lo hi st m R P1 P2 Q P3 T];
    eexists; (split; [reflexivity|]); apply padded_holds in P1, P2; destruct (range_facts _ _ _ R) as (R1 & R2 & R3);
    destruct (word_facts _ (status_word st)) as (W1 & W2); assert (W3 : bytes_of (status_name st) <> []) by (destruct st; discriminate);
    pose proof (rest_tail _ _ nl T S) as TT; unfold scan_idna.
  - rewrite <- app_assoc. cbn [app]. rewrite <- !app_assoc. rewrite (field_semi l f1) by auto. rewrite (last_field2 (bytes_of (status_name st)) f2) by auto.
    cbn [next_field]. rewrite (scan_range_ok _ _ _ R). cbn [bind]. rewrite scan_status_ok. reflexivity.
  - rewrite <- app_assoc. cbn [app]. rewrite <- !app_assoc. cbn [app]. rewrite <- !app_assoc. rewrite (field_semi l f1) by auto. rewrite (field_semi (bytes_of (status_name st)) f2) by auto.
    destruct (empty_field f3 (t ++ nl) (blanks_spaces _ B) TT) as (q & [E|E]); rewrite E; rewrite (scan_range_ok _ _ _ R); cbn [bind]; rewrite scan_status_ok; reflexivity.
  - rewrite <- app_assoc. cbn [app]. rewrite <- !app_assoc. cbn [app]. rewrite <- !app_assoc. rewrite (field_semi l f1) by auto. rewrite (field_semi (bytes_of (status_name st)) f2) by auto.
    destruct (sequence_nonempty _ _ Q) as (X1 & X2).
    destruct (last_field x f3 (t ++ nl) (padded_holds _ _ P3) (sequence_inside _ _ Q) (sequence_tight _ _ Q) X1 TT) as (q & E). rewrite E.
    rewrite (scan_range_ok _ _ _ R). cbn [bind]. rewrite scan_status_ok. cbn [bind].
    pose proof (scan_mapping_ok x m Q [] (Datatypes.S (length x)) ltac:(constructor) ltac:(lia)) as M. cbn [app] in M.
    destruct x as [|c x]; [congruence|]. rewrite M. cbn [bind]. destruct m; [congruence|]. reflexivity.
Qed.

Lemma scan_nfcqc_ok : forall l r nl, props_line l r -> spaces nl ->
  exists x, r = match x with Some q => [q] | None => [] end /\ scan_nfcqc (l ++ nl) = Ok x.
Proof.
  intros l r nl H S. destruct H as [l f1 f2 f3 t lo hi q R P1 P2 P3 T|l f1 x f2 t lo hi R P1 W N P2 T];
    apply padded_holds in P1, P2; destruct (range_facts _ _ _ R) as (R1 & R2 & R3);
    pose proof (rest_tail _ _ nl T S) as TT; unfold scan_nfcqc.
  - exists (Some (Qrow lo hi q)). split; [reflexivity|]. rewrite <- app_assoc. cbn [app]. rewrite <- !app_assoc. cbn [app]. rewrite <- !app_assoc.
    rewrite (field_semi l f1) by auto.
    assert (W : word (bytes_of "NFC_QC")) by (apply wordb; reflexivity). destruct (word_facts _ W) as (W1 & W2).
    rewrite (field_semi (bytes_of "NFC_QC") f2) by (auto; discriminate).
    assert (V : word [qc_letter q]) by (apply wordb; destruct q; reflexivity). destruct (word_facts _ V) as (V1 & V2).
    destruct (last_field [qc_letter q] f3 (t ++ nl) (padded_holds _ _ P3) V1 V2 ltac:(discriminate) TT) as (r' & E). rewrite E.
    rewrite text_bytes, same_refl. cbn [negb]. rewrite (scan_range_ok _ _ _ R). cbn [bind]. destruct q; reflexivity.
  - exists None. split; [reflexivity|]. rewrite <- app_assoc. cbn [app]. rewrite <- !app_assoc. rewrite (field_semi l f1) by auto.
    destruct (word_facts _ W) as (W1 & W2).
    assert (E : exists o r', next_field (f2 ++ t ++ nl) = (o, r') /\ (o = None \/ o = Some x)).
    { destruct x as [|c x].
      - destruct P2 as (a & b & A & B & ->). destruct (empty_field (a ++ [] ++ b) (t ++ nl) ltac:(auto using spaces_app) TT) as (q & [E|E]); rewrite E; eauto.
      - destruct (last_field (c :: x) f2 (t ++ nl) P2 W1 W2 ltac:(discriminate) TT) as (q & E). rewrite E. eauto. }
    destruct E as (o & r' & E & O). rewrite E. destruct (next_field r') as (ch & r''). destruct O as [->| ->]; [reflexivity|].
    assert (same x (text "NFC_QC") = false) as ->; [|reflexivity].
    destruct (same x (text "NFC_QC")) eqn:F; [|reflexivity]. apply same_iff in F. rewrite text_bytes in F. congruence.
Qed.

(** * Lines *)
Lemma fgets_line : forall l n t, Forall (fun c => c <> 0 /\ c <> 10) l -> (length l < n)%nat -> fgets n (l ++ 10 :: t) = (l ++ [10], t).
Proof.
  induction l as [|c l IH]; intros n t F L; (destruct n as [|n]; [cbn [length] in L; lia|]); cbn [app fgets].
  - reflexivity.
  - pose proof (Forall_inv F) as (_ & C). apply Z.eqb_neq in C. rewrite C. rewrite IH; [reflexivity|now inversion F|cbn [length] in L; lia].
Qed.
Lemma fgets_last : forall l n, Forall (fun c => c <> 0 /\ c <> 10) l -> (length l <= n)%nat -> fgets n l = (l, []).
Proof.
  induction l as [|c l IH]; intros n F L; destruct n as [|n]; cbn [length] in L; try lia; cbn [fgets]; try reflexivity.
  pose proof (Forall_inv F) as (_ & C). apply Z.eqb_neq in C. rewrite C. rewrite IH; [reflexivity|now inversion F|lia].
Qed.
Lemma upto0_clean : forall l, Forall (fun c => c <> 0) l -> upto0 l = l.
Proof. induction 1 as [|c l H F IH]; [reflexivity|]. cbn [upto0]. apply Z.eqb_neq in H. rewrite H, IH. reflexivity. Qed.

(** What the buffers hold. *)
Inductive lines_of {A} (line : list Z -> list A -> Prop) : list (list Z) -> list A -> Prop :=
| lines_nil : lines_of line [] []
| lines_cons : forall l nl r ls rs, nl = [] \/ nl = [10] -> line l r -> lines_of line ls rs -> lines_of line ((l ++ nl) :: ls) (r ++ rs).

Lemma buffers_ok : forall A (line : list Z -> list A -> Prop) t rows, file_of 1022 line t rows ->
  forall fuel, (length t <= fuel)%nat -> exists ls, buffers fuel t = Ok ls /\ lines_of line ls rows.
Proof.
  assert (BL : forall l : list Z, zlen l <= 1022 -> (length l < BUF)%nat) by (intros l H; unfold BUF; unfold zlen in H; lia).
  induction 1 as [|l r N (F & L) H|l r t rs (F & L) H G IH]; intros fuel FU.
  - exists []. split; [destruct fuel; reflexivity|constructor].
  - destruct l as [|c l]; [congruence|]. destruct fuel as [|fuel]; [cbn [length] in FU; lia|]. cbn [buffers].
    rewrite fgets_last by (auto; specialize (BL _ L); lia). replace (buffers fuel []) with (@Ok (list (list Z)) []) by (destruct fuel; reflexivity). cbn [bind].
    rewrite upto0_clean by (eapply Forall_impl; [|exact F]; cbv beta; tauto). eexists. split; [reflexivity|].
    rewrite <- (app_nil_r (c :: l)), <- (app_nil_r r). constructor; auto. constructor.
  - assert (E : exists c q, l ++ 10 :: t = c :: q) by (destruct l; cbn [app]; eauto). destruct E as (c & q & E).
    destruct fuel as [|fuel]; [rewrite E in FU; cbn [length] in FU; lia|]. rewrite E. cbn [buffers]. rewrite <- E. rewrite fgets_line by auto.
    destruct (IH fuel) as (ls & B & C); [rewrite app_length in FU; cbn [length] in FU; lia|]. rewrite B. cbn [bind].
    rewrite upto0_clean. 2:{ apply Forall_app. split; [eapply Forall_impl; [|exact F]; cbv beta; tauto|]. repeat constructor. discriminate. }
    eexists. split; [reflexivity|]. constructor; auto.
Qed.

Lemma nl_spaces : forall nl, nl = [] \/ nl = [10] -> spaces nl.
Proof. intros nl [->| ->]; repeat constructor. Qed.

Lemma scan_lines_ok : forall A (line : list Z -> list A -> Prop) scan,
  (forall l r, line l r -> exists b c q, l = b ++ c :: q /\ blanks b /\ isspace c = false /\ c <> 35 /\ line (c :: q) r) ->
  (forall l r nl, line l r -> spaces nl -> exists x, r = match x with Some a => [a] | None => [] end /\ scan (l ++ nl) = Ok x) ->
  forall ls rows, lines_of (or_ignorable line) ls rows -> scan_lines scan ls = Ok rows.
Proof.
  intros A line scan Hd Sc ls rows. induction 1 as [|l nl r ls rs NL L G IH]; [reflexivity|]. cbn [scan_lines]. apply nl_spaces in NL.
  destruct L as [l r L|l I].
  - destruct (Hd l r L) as (b & c & q & -> & B & C & C' & L'). rewrite <- app_assoc, skip_spaces by now apply blanks_spaces. cbn [app skip_space]. rewrite C.
    apply Z.eqb_neq in C'. rewrite C'. destruct (Sc _ _ nl L' NL) as (x & -> & E). cbn [app] in E. rewrite E. cbn [bind]. rewrite IH. cbn [bind].
    destruct x; reflexivity.
  - cbn [app]. destruct I as [B|(b & q & B & ->)].
    + rewrite skip_space_all by (apply spaces_app; auto using blanks_spaces). exact IH.
    + rewrite <- app_assoc, skip_spaces by now apply blanks_spaces. cbn [app skip_space isspace]. exact IH.
Qed.

Lemma range_head : forall l f, (exists lo hi, range_text dots l lo hi) -> padded l f ->
  exists b c q, f = b ++ c :: q /\ blanks b /\ isspace c = false /\ c <> 35 /\ padded l (c :: q).
Proof.
  intros l f (lo & hi & R) (a & b & A & B & ->). destruct (range_facts _ _ _ R) as (I & (T & _) & N). destruct l as [|c l]; [congruence|].
  exists a, c, (l ++ b). split; [reflexivity|]. split; [exact A|]. split; [exact T|]. split; [apply (Forall_inv I)|]. exists [], b. repeat split; auto. constructor.
Qed.
Lemma idna_head : forall l r, idna_line l r -> exists b c q, l = b ++ c :: q /\ blanks b /\ isspace c = false /\ c <> 35 /\ idna_line (c :: q) r.
Proof.
  intros l r [l0 f1 f2 t lo hi st R P1 P2 T|l0 f1 f2 f3 t lo hi st R P1 P2 B T|l0 f1 f2 x f3 t lo hi st m R P1 P2 Q P3 T];
    destruct (range_head l0 f1 ltac:(eauto) P1) as (b & c & q & -> & B1 & C1 & C2 & P'); exists b, c; rewrite <- app_assoc; cbn [app];
    eexists; (split; [reflexivity|]); (split; [exact B1|]); (split; [exact C1|]); (split; [exact C2|]).
  - apply (idna_unmapped l0 (c :: q) f2 t); auto.
  - apply (idna_empty l0 (c :: q) f2 f3 t); auto.
  - apply (idna_mapped l0 (c :: q) f2 x f3 t); auto.
Qed.
Lemma props_head : forall l r, props_line l r -> exists b c q, l = b ++ c :: q /\ blanks b /\ isspace c = false /\ c <> 35 /\ props_line (c :: q) r.
Proof.
  intros l r [l0 f1 f2 f3 t lo hi q0 R P1 P2 P3 T|l0 f1 x f2 t lo hi R P1 W N P2 T];
    destruct (range_head l0 f1 ltac:(eauto) P1) as (b & c & q & -> & B1 & C1 & C2 & P'); exists b, c; rewrite <- app_assoc; cbn [app];
    eexists; (split; [reflexivity|]); (split; [exact B1|]); (split; [exact C1|]); (split; [exact C2|]).
  - apply (props_qc l0 (c :: q) f2 f3 t lo hi q0); auto.
  - apply (props_other l0 (c :: q) x f2 t lo hi); auto.
Qed.

Lemma scan_idna_file : forall t rows, idna_file 1022 t rows -> scan_file scan_idna t = Ok rows.
Proof.
  intros t rows H. unfold scan_file. destruct (buffers_ok _ _ _ _ H (length t) ltac:(lia)) as (ls & -> & L). cbn [bind].
  apply (scan_lines_ok _ idna_line); auto; [exact idna_head|]. intros l r nl I S. destruct (scan_idna_ok l r nl I S) as (x & -> & E). exists (Some x). auto.
Qed.
Lemma scan_props_file : forall t rows, props_file 1022 t rows -> scan_file scan_nfcqc t = Ok rows.
Proof.
  intros t rows H. unfold scan_file. destruct (buffers_ok _ _ _ _ H (length t) ltac:(lia)) as (ls & -> & L). cbn [bind].
  apply (scan_lines_ok _ props_line); auto; [exact props_head|]. exact scan_nfcqc_ok.
Qed.

(** * The CSV file *)
Definition without (d : Z) (x : list Z) : Prop := Forall (fun c => c <> d) x.
Lemma token_at : forall d x r, without d x -> token (Some d) (x ++ d :: r) = (x, r).
Proof.
  intros d x r. induction 1 as [|c x H F IH]; cbn [app token].
  - rewrite Z.eqb_refl. reflexivity.
  - apply Z.eqb_neq in H. rewrite H, IH. reflexivity.
Qed.
Lemma token_end : forall d x, without d x -> token (Some d) x = (x, []).
Proof. intros d x. induction 1 as [|c x H F IH]; [reflexivity|]. cbn [token]. apply Z.eqb_neq in H. rewrite H, IH. reflexivity. Qed.
Lemma skip_delim_head : forall d x r, without d x -> x <> [] -> skip_delim (Some d) (x ++ r) = x ++ r.
Proof. intros d [|c x] r H N; [congruence|]. cbn [app skip_delim]. apply Forall_inv, Z.eqb_neq in H. rewrite H. reflexivity. Qed.
Lemma strtok_at : forall d x r, without d x -> x <> [] -> strtok (Some d) (x ++ d :: r) = Some (x, r).
Proof.
  intros d x r H N. unfold strtok. rewrite skip_delim_head by auto. destruct x as [|c x]; [congruence|]. cbn [app].
  change (c :: x ++ d :: r) with ((c :: x) ++ d :: r). rewrite token_at by auto. reflexivity.
Qed.
Lemma strtok_end : forall d x, without d x -> x <> [] -> strtok (Some d) x = Some (x, []).
Proof.
  intros d x H N. unfold strtok. rewrite <- (app_nil_r x) at 1. rewrite skip_delim_head by auto. rewrite app_nil_r. destruct x as [|c x]; [congruence|].
  rewrite token_end by auto. reflexivity.
Qed.
Lemma hexnum_without : forall l v d, hexnum l v -> ~ hexchar d -> without d l.
Proof. intros l v d H N. destruct (hexnum_chars l v H) as (A & _). eapply Forall_impl; [|exact A]. cbv beta. intros c C ->. contradiction. Qed.
Lemma c_hex_ok : forall l v, hexnum l v -> c_hex l = Ok v.
Proof.
  intros l v H. destruct (hexnum_chars l v H) as (A & N & R). pose proof (hexnum_value l v [] H I) as E. rewrite app_nil_r in E. unfold c_hex.
  destruct l as [|c l]; [congruence|]. destruct (hexchar_some c (Forall_inv A)) as (d & ->). rewrite E.
  replace (0xffffffff <? v) with false by (symmetry; apply Z.ltb_ge; lia). reflexivity.
Qed.
Lemma c_prop_ok : forall p, c_prop (bytes_of (prop_name p)) = Ok p.
Proof. intros []; reflexivity. Qed.

Lemma gendata_line_ok : forall l r nl, csv_line l r -> exists p lo hi, r = [Prow lo hi p] /\
  gendata_line (l ++ nl) = Ok (match p with UNASSIGNED => None | _ => Some (IdnaEntry lo hi p) end).
Proof.
  intros l r nl [l0 lo hi p t R]. exists p, lo, hi. split; [reflexivity|]. unfold gendata_line.
  set (P := bytes_of (prop_name p)).
  assert (NL : ~ hexchar 44 /\ ~ hexchar 45) by (unfold hexchar; lia). destruct NL as (N44 & N45).
  assert (L0 : without 44 l0 /\ l0 <> []).
  { destruct R as [l1 c H|a b lo' hi' A B].
    - destruct (hexnum_chars _ _ H) as (_ & L & _). split; [eapply hexnum_without; eauto|exact L].
    - destruct (hexnum_chars _ _ A) as (_ & L & _). split; [|destruct a; [congruence|discriminate]].
      apply Forall_app. split; [eapply hexnum_without; eauto|]. apply Forall_app. split; [repeat constructor; discriminate|eapply hexnum_without; eauto]. }
  destruct L0 as (L1 & L2).
  assert (PW : without 44 P /\ P <> []).
  { split; [|destruct p; discriminate]. assert (W : word P) by (destruct p; apply wordb; reflexivity). eapply Forall_impl; [|exact W]. cbv beta. lia. }
  destruct PW as (P1 & P2).
  assert (E : (l0 ++ 44 :: P ++ 44 :: t) ++ nl = l0 ++ 44 :: P ++ 44 :: t ++ nl) by (rewrite <- app_assoc; cbn [app]; rewrite <- app_assoc; reflexivity).
  rewrite E. rewrite (strtok_at 44 l0) by auto. rewrite (strtok_at 44 P) by auto.
  rewrite (skip_delim_head 44 l0) by auto. rewrite Nat.sub_diag. cbn [firstn]. rewrite (token_at 44 l0) by auto. cbn [app].
  destruct (same P (text "UNASSIGNED")) eqn:Q.
  { apply same_iff in Q. destruct p; try reflexivity; exfalso; revert Q; vm_compute; discriminate. }
  assert (G : forall e, match p with UNASSIGNED => None | _ => Some e end = Some e :> option idna_entry).
  { intros e. destruct p; try reflexivity. revert Q. vm_compute. discriminate. }
  rewrite G. destruct R as [l1 c H|a b lo' hi' A B].
  - rewrite (strtok_end 45 l1) by (auto; eapply hexnum_without; eauto).
    assert (W : without 45 l1) by (eapply hexnum_without; eauto).
    pose proof (skip_delim_head 45 l1 [] W L2) as SK. rewrite app_nil_r in SK. rewrite SK, Nat.sub_diag. cbn [firstn app].
    rewrite (c_hex_ok _ _ H). cbn [bind]. unfold P. rewrite c_prop_ok. reflexivity.
  - assert (W : without 45 a) by (eapply hexnum_without; eauto). destruct (hexnum_chars _ _ A) as (_ & LA & _). destruct (hexnum_chars _ _ B) as (_ & LB & _).
    cbn [app]. rewrite (strtok_at 45 a) by auto. rewrite (skip_delim_head 45 a) by auto. rewrite Nat.sub_diag. cbn [firstn app].
    rewrite (c_hex_ok _ _ A). destruct b as [|c b]; [congruence|]. cbn [bind]. rewrite (c_hex_ok _ _ B). cbn [bind]. unfold P. rewrite c_prop_ok. reflexivity.
Qed.
Lemma gendata_lines_ok : forall ls rows, lines_of csv_line ls rows -> gendata_lines ls = Ok (gendata rows).
Proof.
  induction 1 as [|l nl r ls rs NL L G IH]; [reflexivity|]. cbn [gendata_lines].
  destruct (gendata_line_ok l r nl L) as (p & lo & hi & -> & E). rewrite E. cbn [bind]. rewrite IH. cbn [bind app gendata p_prop p_lo p_hi]. destruct p; reflexivity.
Qed.
Lemma prefix_app : forall p x, prefix p (p ++ x) = true.
Proof. induction p as [|a p IH]; intros x; [reflexivity|]. cbn [app prefix]. rewrite Z.eqb_refl. apply IH. Qed.
Lemma gendata_file : forall t rows, csv_file 1022 t rows -> gendata_text t = Ok (gendata rows).
Proof.
  intros t rows (h & r & (F & L) & (x & X) & -> & G). unfold gendata_text.
  assert (BL : (length h < BUF)%nat) by (unfold BUF; unfold zlen in L; lia).
  assert (E : exists c q, h ++ 10 :: r = c :: q) by (destruct h; cbn [app]; eauto). destruct E as (c & q & E).
  destruct (length (h ++ 10 :: r)) as [|n] eqn:LN; [rewrite app_length in LN; cbn [length] in LN; lia|].
  assert (B : buffers (Datatypes.S n) (h ++ 10 :: r) = let* ls := buffers n r in Ok (upto0 (h ++ [10]) :: ls)).
  { rewrite E. cbn [buffers]. rewrite <- E. rewrite fgets_line by auto. reflexivity. }
  rewrite B. destruct (buffers_ok _ _ _ _ G n) as (ls & -> & LL); [rewrite app_length in LN; cbn [length] in LN; lia|]. cbn [bind].
  rewrite upto0_clean. 2:{ apply Forall_app. split; [eapply Forall_impl; [|exact F]; cbv beta; tauto|]. repeat constructor. discriminate. }
  rewrite X, <- app_assoc, text_bytes, prefix_app. now apply gendata_lines_ok.
Qed.
