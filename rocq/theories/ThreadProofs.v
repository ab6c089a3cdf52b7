(** Threads do not notice each other: whatever the schedule, every thread does
    what it could do alone. *)
From Coq Require Import Permutation.
From Verif Require Import Base Heap SpecHeap Thread.

Section Alone.
  Context {A : Type}.

  (** What the allocator does before does not matter. *)
  Definition same_from (n : nat) (E E' : allocator) : Prop :=
    forall m, (n <= m)%nat -> (forall k, fails E m k = fails E' m k) /\ spoils E m = spoils E' m.
  Lemma same_later : forall n m E E', (n <= m)%nat -> same_from n E E' -> same_from m E E'.
  Proof. intros n m E E' H S p Hp. apply S. lia. Qed.
  Lemma alone_ext : forall E E' (c : code A) h, same_from (calls h) E E' -> alone E c h = alone E' c h.
  Proof.
    intros E E' c. induction c as [a|n k IH|n x k IH|o k IH|p k IH|k IH| |]; intros h S; cbn [alone]; unfold hbind; auto.
    - unfold load. destruct (find_block n (live h)); cbn [bind]; auto.
    - unfold fill. destruct (find_block n (live h)); cbn [bind]; auto.
    - unfold acquire. rewrite (proj1 (S (calls h) (le_n _))). destruct (fails E' _ _); cbn [bind].
      + apply IH. cbn. apply (same_later (calls h)); auto.
      + destruct o; cbn [bind]; apply IH; cbn; apply (same_later (calls h)); auto.
    - unfold free. rewrite (proj2 (S (calls h) (le_n _))). destruct p as [n|].
      + destruct (find_block n (live h)); cbn [bind]; auto. apply IH. cbn. apply (same_later (calls h)); auto.
      + cbn [bind]. apply IH. cbn. apply (same_later (calls h)); auto.
    - unfold nomem. cbn [bind]. apply IH. exact S.
  Qed.

  Variables scarce spoil : bool.
  Definition fair (E : allocator) : Prop := (scarce = false -> plentiful E) /\ (spoil = false -> keeps_errno E).
  Definition calm : allocator := Allocator (fun _ _ => false) (fun _ => None).
  Lemma calm_fair : fair calm. Proof. split; intros _ n; reflexivity. Qed.

  (** The allocator that does [f] and [s] at its n-th call, and then goes on like [E]. *)
  Definition now (n : nat) (f : bool) (s : option Z) (E : allocator) : allocator :=
    Allocator (fun m k => if Nat.eqb m n then f else fails E m k) (fun m => if Nat.eqb m n then s else spoils E m).
  Lemma now_same : forall n f s E, same_from (S n) (now n f s E) E.
  Proof. intros n f s E m H. cbn. destruct (Nat.eqb_spec m n); [lia|]. split; auto. Qed.
  Lemma now_fair : forall n f s E, (f = true -> scarce = true) -> (s <> None -> spoil = true) -> fair E -> fair (now n f s E).
  Proof.
    intros n f s E Hf Hs (F1 & F2). split; intros X m; cbn.
    - intros k. destruct (Nat.eqb m n); [|apply (F1 X)]. destruct f; auto. rewrite Hf in X by reflexivity. discriminate.
    - destruct (Nat.eqb m n); [|apply (F2 X)]. destruct s; auto. rewrite Hs in X by discriminate. discriminate.
  Qed.

  (** [c] in [h] is what may be left to do after [c0] has begun in [h0]. *)
  Definition past (c0 : code A) (h0 : heap) (c : code A) (h : heap) : Prop :=
    forall E1, fair E1 -> exists E, fair E /\ alone E c0 h0 = alone E1 c h.
  Definition secure (c : code A) (h : heap) : Prop := forall E, fair E -> exists a h', alone E c h = Ok (a, h').
  Lemma past_refl : forall c h, past c h c h. Proof. intros c h E1 F. exists E1. auto. Qed.
  Lemma past_trans : forall c0 h0 c1 h1 c2 h2, past c0 h0 c1 h1 -> past c1 h1 c2 h2 -> past c0 h0 c2 h2.
  Proof. intros c0 h0 c1 h1 c2 h2 P Q E2 F2. destruct (Q E2 F2) as (E1 & F1 & e1). destruct (P E1 F1) as (E & F & e). exists E. split; auto. congruence. Qed.
  Lemma past_secure : forall c0 h0 c h, past c0 h0 c h -> secure c0 h0 -> secure c h.
  Proof. intros c0 h0 c h P Q E F. destruct (P E F) as (E0 & F0 & e). destruct (Q E0 F0) as (a & h' & e'). exists a, h'. congruence. Qed.

  Lemma past_read : forall n k h l, find_block n (live h) = Some l -> past (Read n k) h (k l) h.
  Proof. intros n k h l H E F. exists E. split; auto. cbn [alone]. unfold hbind, load. rewrite H. reflexivity. Qed.
  Lemma past_write : forall n x k h l, find_block n (live h) = Some l ->
    past (Write n x k) h k (Heap (fill_block n x (live h)) (fresh h) (calls h) (errno h)).
  Proof. intros n x k h l H E F. exists E. split; auto. cbn [alone]. unfold hbind, fill. rewrite H. reflexivity. Qed.
  Lemma past_malloc : forall l k h,
    past (Malloc (Some l) k) h (k (Some (fresh h))) (Heap ((fresh h, l) :: live h) (S (fresh h)) (S (calls h)) (errno h)).
  Proof.
    intros l k h E F. exists (now (calls h) false None E). split; [apply now_fair; congruence|]. cbn [alone]. unfold hbind, acquire. cbn [fails now].
    rewrite Nat.eqb_refl. cbn [bind]. apply alone_ext. apply now_same.
  Qed.
  Lemma past_refused : forall k h, past (Malloc None k) h (k None) (Heap (live h) (fresh h) (S (calls h)) EILSEQ).
  Proof.
    intros k h E F. exists (now (calls h) false None E). split; [apply now_fair; congruence|]. cbn [alone]. unfold hbind, acquire. cbn [fails now].
    rewrite Nat.eqb_refl. cbn [bind]. apply alone_ext. apply now_same.
  Qed.
  Lemma past_scarce : forall o k h, scarce = true -> past (Malloc o k) h (k None) (Heap (live h) (fresh h) (S (calls h)) ENOMEM).
  Proof.
    intros o k h H E F. exists (now (calls h) true None E). split; [apply now_fair; congruence|]. cbn [alone]. unfold hbind, acquire. cbn [fails now].
    rewrite Nat.eqb_refl. cbn [bind]. apply alone_ext. apply now_same.
  Qed.
  Definition leaves_errno (e e' : Z) : option Z := if e' =? e then None else Some e'.
  Lemma leaves_errno_ok : forall e e', match leaves_errno e e' with Some x => x | None => e end = e'.
  Proof. intros e e'. unfold leaves_errno. destruct (Z.eqb_spec e' e); auto. Qed.
  Lemma leaves_errno_fair : forall e e', e' = e \/ spoil = true -> leaves_errno e e' <> None -> spoil = true.
  Proof. intros e e' [-> | H] N; auto. unfold leaves_errno in N. rewrite Z.eqb_refl in N. congruence. Qed.
  Lemma past_free_null : forall k h e', e' = errno h \/ spoil = true -> past (Free None k) h k (Heap (live h) (fresh h) (S (calls h)) e').
  Proof.
    intros k h e' H E F. exists (now (calls h) false (leaves_errno (errno h) e') E). split.
    { apply now_fair; [congruence| |auto]. apply leaves_errno_fair. exact H. }
    cbn [alone]. unfold hbind, free. cbn [spoils now].
    rewrite Nat.eqb_refl, leaves_errno_ok. cbn [bind]. apply alone_ext. apply now_same.
  Qed.
  Lemma past_free : forall n k h e' l, find_block n (live h) = Some l -> e' = errno h \/ spoil = true ->
    past (Free (Some n) k) h k (Heap (drop_block n (live h)) (fresh h) (S (calls h)) e').
  Proof.
    intros n k h e' l B H E F. exists (now (calls h) false (leaves_errno (errno h) e') E). split.
    { apply now_fair; [congruence| |auto]. apply leaves_errno_fair. exact H. }
    cbn [alone]. unfold hbind, free. cbn [spoils now].
    rewrite Nat.eqb_refl, leaves_errno_ok, B. cbn [bind]. apply alone_ext. apply now_same.
  Qed.
  Lemma past_errno : forall k h, past (Errno k) h (k (errno h =? ENOMEM)) h.
  Proof. intros k h E F. exists E. split; auto. Qed.

  (** A thread that is secure uses its own blocks only. *)
  Lemma secure_find : forall n c h, secure c h ->
    match c with Read m _ | Write m _ _ | Free (Some m) _ => m = n | _ => False end -> exists l, find_block n (live h) = Some l.
  Proof.
    intros n c h S H. destruct (S calm calm_fair) as (a & h' & e).
    destruct c as [a0|m k|m x k|o k|[m|] k|k| |]; try contradiction; subst m; cbn [alone] in e; unfold hbind, load, fill, free in e;
      (destruct (find_block n (live h)) as [l|]; [exists l; reflexivity|discriminate]).
  Qed.
  Lemma secure_right : forall c h, secure c h -> c <> Wrong /\ c <> Spin.
  Proof. intros c h S. destruct (S calm calm_fair) as (a & h' & e). split; intros ->; discriminate. Qed.
End Alone.

(** Memory. *)
Lemma at_none : forall G x, at_address x G = None <-> ~ In x (map fst G).
Proof.
  induction G as [|(y, l) r IH]; intros x; cbn; [tauto|]. destruct (Z.eqb_spec y x).
  - split; [discriminate|tauto].
  - rewrite IH. tauto.
Qed.
Lemma at_in : forall G x l, NoDup (map fst G) -> In (x, l) G -> at_address x G = Some l.
Proof.
  induction G as [|(y, m) r IH]; intros x l N H; [destruct H|]. cbn in N. inversion N as [|? ? N1 N2]; subst. cbn. destruct H as [H|H].
  - injection H as -> ->. rewrite Z.eqb_refl. reflexivity.
  - destruct (Z.eqb_spec y x); [|apply IH; auto]. subst. destruct N1. apply (in_map fst) in H. exact H.
Qed.
Lemma at_some : forall G x l, at_address x G = Some l -> In (x, l) G.
Proof.
  induction G as [|(y, m) r IH]; intros x l H; [discriminate|]. cbn in H. destruct (Z.eqb_spec y x).
  - injection H as ->. left. congruence.
  - right. auto.
Qed.
Lemma without_split : forall G1 G2 x l, ~ In x (map fst G1) -> without x (G1 ++ (x, l) :: G2) = G1 ++ G2.
Proof.
  induction G1 as [|(y, m) r IH]; intros G2 x l H; cbn.
  - rewrite Z.eqb_refl. reflexivity.
  - cbn in H. destruct (Z.eqb_spec y x); [tauto|]. rewrite IH by tauto. reflexivity.
Qed.
Lemma with_split : forall G1 G2 x l l', ~ In x (map fst G1) -> with_contents x l' (G1 ++ (x, l) :: G2) = G1 ++ (x, l') :: G2.
Proof.
  induction G1 as [|(y, m) r IH]; intros G2 x l l' H; cbn.
  - rewrite Z.eqb_refl. reflexivity.
  - cbn in H. destruct (Z.eqb_spec y x); [tauto|]. rewrite IH by tauto. reflexivity.
Qed.
Lemma at_split : forall G x l, at_address x G = Some l -> exists G1 G2, G = G1 ++ (x, l) :: G2 /\ ~ In x (map fst G1).
Proof.
  induction G as [|(y, m) r IH]; intros x l H; [discriminate|]. cbn in H. destruct (Z.eqb_spec y x).
  - injection H as ->. subst. exists [], r. split; auto.
  - destruct (IH _ _ H) as (G1 & G2 & -> & N). exists ((y, m) :: G1), G2. split; auto. cbn. tauto.
Qed.

(** A thread, where it began and its heap. *)
Section System.
  Context {A : Type}.
  Variable spoil : bool.
  Record world := World { ini : thread A; own : heap; cur : thread A }.
  Definition begin (t : thread A) : heap := Heap [] (named t) 0 (error t).
  Definition good (w : world) : Prop :=
    scarce (cur w) = scarce (ini w) /\ past (scarce (ini w)) spoil (todo (ini w)) (begin (ini w)) (todo (cur w)) (own w) /\
    fresh (own w) = named (cur w) /\ errno (own w) = error (cur w) /\ heap_ok (own w).
  Definition at_place (pl : nat -> Z) (b : nat * list Z) : Z * list Z := (pl (fst b), snd b).
  Definition image (w : world) : memory := map (at_place (place (cur w))) (live (own w)).

  Lemma find_split : forall n l v, find_block n l = Some v -> exists a b, l = a ++ (n, v) :: b /\ fill_block n = fill_block n /\
    drop_block n l = a ++ b /\ forall x, fill_block n x l = a ++ (n, x) :: b.
  Proof.
    intros n l v. induction l as [|(m, y) r IH]; intros H; [discriminate|]. cbn in H. destruct (Nat.eqb_spec m n).
    - injection H as ->. subst. exists [], r. cbn. rewrite Nat.eqb_refl. auto.
    - destruct (IH H) as (a & b & -> & _ & D & F). exists ((m, y) :: a), b. cbn. destruct (Nat.eqb_spec m n); [contradiction|].
      rewrite D. repeat split; auto. intros x. rewrite F. reflexivity.
  Qed.
  Lemma image_in : forall w n l, find_block n (live (own w)) = Some l -> In (place (cur w) n, l) (image w).
  Proof.
    intros w n l H. destruct (find_split _ _ _ H) as (a & b & e & _). unfold image. rewrite e.
    apply (in_map (at_place (place (cur w))) _ (n, l)). apply in_or_app. right. left. reflexivity.
  Qed.

  Lemma perm_keys : forall G G' : memory, Permutation G G' -> NoDup (map fst G) -> NoDup (map fst G').
  Proof. intros G G' P N. apply (Permutation_NoDup (Permutation_map fst P) N). Qed.

  Lemma nodup_right : forall (l l' : list Z), NoDup (l ++ l') -> NoDup l'.
  Proof. induction l as [|x l IH]; intros l' H; auto. inversion H; subst. apply IH. auto. Qed.

  (** One step of one thread. *)
  Lemma step_world : forall R G w G' t', good w -> secure (scarce (ini w)) spoil (todo (ini w)) (begin (ini w)) ->
    Permutation G (image w ++ R) -> NoDup (map fst G) -> tstep spoil G (cur w) G' t' ->
    exists w', ini w' = ini w /\ cur w' = t' /\ good w' /\ Permutation G' (image w' ++ R) /\ NoDup (map fst G').
  Proof.
    intros R G [t0 h t] G' t' (HS & P & HF & HE & HO) S PM ND ST. cbn in *.
    pose proof (past_secure _ _ _ _ _ _ P S) as S'.
    assert (FIND : forall n l, find_block n (live h) = Some l -> at_address (place t n) G = Some l).
    { intros n l H. apply at_in; auto. apply (Permutation_in _ (Permutation_sym PM)). apply in_or_app. left. apply (image_in (World t0 h t)). exact H. }
    unfold image in PM. cbn [cur own] in PM.
    destruct ST as [n k pl nm e sc l H|n x k pl nm e sc l H|l k pl nm e sc x H|k pl nm e sc|o k pl nm e|k pl nm e sc e' H|n k pl nm e sc e' l H He|k pl nm e sc]; cbn in *.
    - destruct (secure_find _ _ n _ _ S' eq_refl) as (l' & B). pose proof (FIND _ _ B) as e1. rewrite e1 in H. injection H as <-.
      exists (World t0 h (Thread (k l') pl nm e sc)). repeat split; auto. cbn.
      exact (past_trans _ _ _ _ _ _ _ _ P (past_read _ _ _ _ _ _ B)).
    - destruct (secure_find _ _ n _ _ S' eq_refl) as (l' & B). pose proof (FIND _ _ B) as e1. rewrite e1 in H. injection H as <-.
      destruct (find_split _ _ _ B) as (a & b & EL & _ & _ & FI).
      exists (World t0 (Heap (fill_block n x (live h)) (fresh h) (calls h) (errno h)) (Thread k pl nm e sc)). unfold good, image. cbn.
      destruct (at_split _ _ _ e1) as (G1 & G2 & EG & N1). rewrite EG in *. rewrite (with_split _ _ _ _ _ N1).
      assert (PM' : Permutation (G1 ++ G2) ((map (at_place pl) a ++ map (at_place pl) b) ++ R)).
      { rewrite EL, map_app in PM. cbn [map] in PM. rewrite <- app_assoc in PM. cbn [app] in PM.
        apply Permutation_app_inv in PM. rewrite <- app_assoc. exact PM. }
      repeat split; auto.
      + exact (past_trans _ _ _ _ _ _ _ _ P (past_write _ _ _ _ _ _ _ B)).
      + intros m l0 I. rewrite FI in I. apply in_app_or in I.
        destruct I as [I|[I|I]]; [apply (HO m l0); rewrite EL; apply in_or_app; auto|injection I as <- _; apply (HO n l'); rewrite EL; apply in_or_app; right; left; auto|apply (HO m l0); rewrite EL; apply in_or_app; right; right; auto].
      + rewrite FI, map_app. cbn [map]. rewrite <- app_assoc. cbn [app]. unfold at_place at 2. cbn [fst snd].
        rewrite <- app_assoc in PM'. apply Permutation_elt. exact PM'.
      + rewrite map_app in *. cbn in *. exact ND.
    - exists (World t0 (Heap ((fresh h, l) :: live h) (Datatypes.S (fresh h)) (Datatypes.S (calls h)) (errno h))
        (Thread (k (Some nm)) (fun n => if Nat.eqb n nm then x else pl n) (Datatypes.S nm) e sc)). unfold good, image. cbn. repeat split; auto.
      + rewrite <- HF. exact (past_trans _ _ _ _ _ _ _ _ P (past_malloc _ _ _ _ _)).
      + intros n l0 [I|I]; [injection I as <- _; cbn; lia|]. cbn. pose proof (HO _ _ I). lia.
      + unfold at_place at 1. cbn [fst snd]. rewrite HF, Nat.eqb_refl. constructor.
        erewrite map_ext_in; [exact PM|]. intros [n l0] I. unfold at_place. cbn. pose proof (HO _ _ I). destruct (Nat.eqb_spec n nm); [lia|reflexivity].
      + constructor; auto. apply at_none. exact H.
    - exists (World t0 (Heap (live h) (fresh h) (Datatypes.S (calls h)) EILSEQ) (Thread (k None) pl nm EILSEQ sc)). unfold good, image. cbn. repeat split; auto.
      exact (past_trans _ _ _ _ _ _ _ _ P (past_refused _ _ _ _)).
    - exists (World t0 (Heap (live h) (fresh h) (Datatypes.S (calls h)) ENOMEM) (Thread (k None) pl nm ENOMEM true)). unfold good, image. cbn. repeat split; auto.
      exact (past_trans _ _ _ _ _ _ _ _ P (past_scarce _ _ _ _ _ (eq_sym HS))).
    - exists (World t0 (Heap (live h) (fresh h) (Datatypes.S (calls h)) e') (Thread k pl nm e' sc)). unfold good, image. cbn. repeat split; auto.
      rewrite <- HE in H. exact (past_trans _ _ _ _ _ _ _ _ P (past_free_null _ _ _ _ _ H)).
    - destruct (secure_find _ _ n _ _ S' eq_refl) as (l' & B). pose proof (FIND _ _ B) as e1. rewrite e1 in H. injection H as <-.
      destruct (find_split _ _ _ B) as (a & b & EL & _ & DR & _).
      exists (World t0 (Heap (drop_block n (live h)) (fresh h) (Datatypes.S (calls h)) e') (Thread k pl nm e' sc)). unfold good, image. cbn.
      destruct (at_split _ _ _ e1) as (G1 & G2 & EG & N1). rewrite EG in *. rewrite (without_split _ _ _ _ N1).
      assert (PM' : Permutation (G1 ++ G2) ((map (at_place pl) a ++ map (at_place pl) b) ++ R)).
      { rewrite EL, map_app in PM. cbn [map] in PM. rewrite <- app_assoc in PM. cbn [app] in PM.
        apply Permutation_app_inv in PM. rewrite <- app_assoc. exact PM. }
      repeat split; auto.
      + rewrite <- HE in He. exact (past_trans _ _ _ _ _ _ _ _ P (past_free _ _ _ _ _ _ _ B He)).
      + intros m l0 I. cbn in I. rewrite DR in I. apply (HO m l0). rewrite EL. apply in_app_or in I. apply in_or_app. cbn. tauto.
      + rewrite DR, map_app. exact PM'.
      + rewrite map_app in *. cbn in ND. apply NoDup_remove_1 in ND. exact ND.
    - exists (World t0 h (Thread (k (e =? ENOMEM)) pl nm e sc)). repeat split; auto. cbn. rewrite <- HE.
      exact (past_trans _ _ _ _ _ _ _ _ P (past_errno _ _ _ _)).
  Qed.

  Variable G0 : memory.
  Definition inv (ws : list world) (G : memory) : Prop :=
    Forall good ws /\ Permutation G (G0 ++ concat (map image ws)) /\ NoDup (map fst G).
  Definition all_secure (ts : list (thread A)) : Prop := Forall (fun t => secure (scarce t) spoil (todo t) (begin t)) ts.

  Lemma focus : forall (w : world) ws1 ws2, Permutation (G0 ++ concat (map image (ws1 ++ w :: ws2))) (image w ++ (G0 ++ concat (map image (ws1 ++ ws2)))).
  Proof.
    intros w ws1 ws2. rewrite !map_app, !concat_app. cbn [map concat]. rewrite (app_assoc G0 _ (image w ++ _)), (app_assoc G0 _ (concat (map image ws2))).
    apply Permutation_app_swap_app.
  Qed.
  Theorem reach : forall ts0 s, all_secure ts0 -> NoDup (map fst G0) -> steps spoil (G0, ts0) s ->
    exists ws, ts0 = map ini ws /\ snd s = map cur ws /\ inv ws (fst s).
  Proof.
    intros ts0 s S ND ST. remember (G0, ts0) as s0 eqn:Es0. induction ST as [s|s s1 s2 ST1 IH ST2].
    - subst s. exists (map (fun t => World t (begin t) t) ts0). rewrite !map_map. cbn. rewrite !map_id. repeat split; auto.
      + apply Forall_map, Forall_forall. intros t _. repeat split; cbn; auto; [apply past_refl|]. intros n l [].
      + assert (Z : concat (map image (map (fun t => World t (begin t) t) ts0)) = []).
        { clear. induction ts0 as [|t ts IH]; auto. }
        rewrite Z, app_nil_r. apply Permutation_refl.
    - destruct (IH Es0) as (ws & E0 & E1 & (GW & PM & NG)). destruct ST2 as [G G' before t t' after TS]. cbn [fst snd] in *.
      symmetry in E1. apply map_eq_app in E1. destruct E1 as (w1 & w2' & -> & <- & E2). destruct w2' as [|w w2]; [discriminate|]. cbn in E2. injection E2 as <- <-.
      pose proof (Forall_elt _ _ _ GW) as Gw.
      assert (Sw : secure (scarce (ini w)) spoil (todo (ini w)) (begin (ini w))).
      { unfold all_secure in S. rewrite E0 in S. rewrite Forall_map in S. apply Forall_elt in S. exact S. }
      destruct (step_world (G0 ++ concat (map image (w1 ++ w2))) G w G' t' Gw Sw) as (w' & I & C & Gw' & PM' & NG'); auto.
      { apply (Permutation_trans PM). apply focus. }
      exists (w1 ++ w' :: w2). rewrite !map_app. cbn [map]. rewrite I, C. rewrite E0, map_app. repeat split; auto.
      + apply Forall_app in GW. destruct GW as (X & Y). apply Forall_app. split; auto. inversion Y; subst. constructor; auto.
      + cbn. apply (Permutation_trans PM'). apply Permutation_sym. apply focus.
  Qed.

  Section Reached.
    Variables (ts0 : list (thread A)) (G : memory) (ts : list (thread A)).
    Hypothesis S : all_secure ts0.
    Hypothesis ND : NoDup (map fst G0).
    Hypothesis ST : steps spoil (G0, ts0) (G, ts).

    Lemma new_address : forall G1 : memory, exists x, at_address x G1 = None.
    Proof.
      intros G1. assert (H : exists b, forall x, In x (map fst G1) -> x < b).
      { induction (map fst G1) as [|y r (b & IH)]; [exists 0; intros x []|]. exists (Z.max b (y + 1)). intros x [->|I]; [lia|]. specialize (IH x I). lia. }
      destruct H as (b & H). exists b. apply at_none. intros I. specialize (H _ I). lia.
    Qed.
    (** Nobody is stuck: every thread has finished or can go on. *)
    Theorem progress : forall t, In t ts -> (exists a, finished t a) \/ exists G' t', tstep false G t G' t'.
    Proof.
      intros t I. destruct (reach _ _ S ND ST) as (ws & E0 & E1 & (GW & PM & NG)). cbn [fst snd] in *. rewrite E1 in I.
      apply in_map_iff in I. destruct I as (w & <- & I). pose proof (proj1 (Forall_forall _ _) GW w I) as (_ & P & HF & HE & HO).
      assert (Sw : secure (scarce (ini w)) spoil (todo (ini w)) (begin (ini w))).
      { unfold all_secure in S. rewrite E0, Forall_map in S. exact (proj1 (Forall_forall _ _) S w I). }
      pose proof (past_secure _ _ _ _ _ _ P Sw) as S'. pose proof (secure_right _ _ _ _ S') as (R1 & R2).
      assert (FIND : forall n l, find_block n (live (own w)) = Some l -> at_address (place (cur w) n) G = Some l).
      { intros n l H. apply at_in; auto. apply (Permutation_in _ (Permutation_sym PM)). apply in_or_app. right.
        apply in_concat. exists (image w). split; [apply in_map; exact I|apply image_in; exact H]. }
      destruct w as [t0 h [c pl nm e sc]]. cbn in *. unfold finished. cbn.
      destruct c as [a|n k|n x k|[l|] k|[n|] k|k| |]; try contradiction; [left; exists a; reflexivity| | | | | | |]; right.
      - destruct (secure_find _ _ n _ _ S' eq_refl) as (l & B). do 2 eexists. exact (ts_read _ _ _ _ _ _ _ _ _ (FIND _ _ B)).
      - destruct (secure_find _ _ n _ _ S' eq_refl) as (l & B). do 2 eexists. exact (ts_write _ _ _ _ _ _ _ _ _ _ (FIND _ _ B)).
      - destruct (new_address G) as (x & X). do 2 eexists. exact (ts_malloc _ _ _ _ _ _ _ _ _ X).
      - do 2 eexists. apply ts_refused.
      - destruct (secure_find _ _ n _ _ S' eq_refl) as (l & B). do 2 eexists. exact (ts_free _ _ _ _ _ _ _ _ _ _ (FIND _ _ B) (or_introl eq_refl)).
      - do 2 eexists. apply ts_free_null. left. reflexivity.
      - do 2 eexists. apply ts_errno.
    Qed.

    Lemma touches_own : forall w x, good w -> secure (scarce (ini w)) spoil (todo (ini w)) (begin (ini w)) -> touches (cur w) x -> In x (map fst (image w)).
    Proof.
      intros w x (_ & P & _) Sw T. pose proof (past_secure _ _ _ _ _ _ P Sw) as S'. unfold touches in T.
      assert (X : exists n l, find_block n (live (own w)) = Some l /\ place (cur w) n = x).
      { destruct (todo (cur w)) as [a|n k|n y k|o k|[n|] k|k| |] eqn:Et; try contradiction;
          destruct (secure_find _ _ n _ _ S' eq_refl) as (l & B); exists n, l; auto. }
      destruct X as (n & l & B & <-). apply (in_map fst) with (x := (place (cur w) n, l)). apply image_in. exact B.
    Qed.
    (** No two threads are about to use the same block, nor a block that was
        there before. *)
    Theorem no_race : forall ts1 t ts2 t' ts3 x, ts = ts1 ++ t :: ts2 ++ t' :: ts3 -> touches t x -> ~ touches t' x.
    Proof.
      intros ts1 t ts2 t' ts3 x E T T'. destruct (reach _ _ S ND ST) as (ws & E0 & E1 & (GW & PM & NG)). cbn [fst snd] in *. rewrite E in E1.
      symmetry in E1. apply map_eq_app in E1. destruct E1 as (w1 & w2' & -> & <- & E2). destruct w2' as [|w w2']; [discriminate|]. cbn in E2. injection E2 as <- E2.
      apply map_eq_app in E2. destruct E2 as (w2 & w3' & -> & <- & E3). destruct w3' as [|w' w3]; [discriminate|]. cbn in E3. injection E3 as <- <-.
      unfold all_secure in S. rewrite E0, Forall_map in S. rewrite Forall_app in S, GW. destruct S as (_ & S2), GW as (_ & GW2).
      inversion S2 as [|? ? Sw S3]; subst. inversion GW2 as [|? ? Gw GW3]; subst. apply Forall_elt in S3, GW3.
      pose proof (touches_own _ _ Gw Sw T) as I. pose proof (touches_own _ _ GW3 S3 T') as I'.
      apply (perm_keys _ _ PM) in NG. rewrite !map_app, !concat_app in NG. cbn [map concat] in NG. rewrite !map_app, !concat_app in NG. cbn [map concat] in NG.
      rewrite !map_app in NG.
      apply nodup_right in NG. apply nodup_right in NG.
      apply in_split in I. destruct I as (a & b & Ia). rewrite Ia, <- app_assoc in NG. apply NoDup_remove_2 in NG. apply NG.
      apply in_or_app. right. apply in_or_app. right. apply in_or_app. right. apply in_or_app. left. exact I'.
    Qed.
    Theorem hands_off : forall t x, In t ts -> touches t x -> ~ In x (map fst G0).
    Proof.
      intros t x I T I0. destruct (reach _ _ S ND ST) as (ws & E0 & E1 & (GW & PM & NG)). cbn [fst snd] in *. rewrite E1 in I.
      apply in_map_iff in I. destruct I as (w & <- & I). pose proof (proj1 (Forall_forall _ _) GW w I) as Gw.
      assert (Sw : secure (scarce (ini w)) spoil (todo (ini w)) (begin (ini w))).
      { unfold all_secure in S. rewrite E0, Forall_map in S. exact (proj1 (Forall_forall _ _) S w I). }
      pose proof (touches_own _ _ Gw Sw T) as I'.
      apply (perm_keys _ _ PM) in NG. rewrite map_app in NG. apply in_split in I0. destruct I0 as (a & b & Ia). rewrite Ia, <- app_assoc in NG.
      apply NoDup_remove_2 in NG. apply NG. apply in_or_app. right. apply in_or_app. right.
      apply in_map_iff in I'. destruct I' as (p & <- & I'). apply in_map. apply in_concat. exists (image w). split; auto. apply in_map. exact I.
    Qed.

    (** What the finished threads got and what they leave in memory: as if each
        had been alone. *)
    Definition ended (t0 t : thread A) (m : memory) : Prop :=
      scarce t = scarce t0 /\ forall a, finished t a -> exists E h, fair (scarce t0) spoil E /\ alone E (todo t0) (begin t0) = Ok (a, h) /\ m = map (at_place (place t)) (live h).
    Theorem as_alone : exists ms, length ms = length ts0 /\ length ts = length ts0 /\ Permutation G (G0 ++ concat ms) /\ NoDup (map fst G) /\
      forall i t0 t m, nth_error ts0 i = Some t0 -> nth_error ts i = Some t -> nth_error ms i = Some m -> ended t0 t m.
    Proof.
      destruct (reach _ _ S ND ST) as (ws & E0 & E1 & (GW & PM & NG)). cbn [fst snd] in *. exists (map image ws). rewrite E0, E1, !map_length. split; [reflexivity|split; [reflexivity|split; [exact PM|split; [exact NG|] ] ] ].
      intros i t0 t m H0 H1 H2. rewrite nth_error_map in H0, H1, H2. destruct (nth_error ws i) as [w|] eqn:Ew; [|discriminate].
      cbn in H0, H1, H2. injection H0 as <-. injection H1 as <-. injection H2 as <-.
      pose proof (proj1 (Forall_forall _ _) GW w (nth_error_In _ _ Ew)) as (SC & P & _). split; [exact SC|]. intros a Fa.
      destruct (P (calm) (calm_fair _ _)) as (E & FE & e). exists E, (own w). unfold finished in Fa. rewrite Fa in e. cbn in e. split; [exact FE|split; [exact e|reflexivity] ].
    Qed.
  End Reached.

  (** Every schedule ends. *)
  Definition child (c' c : code A) : Prop :=
    match c with
    | Read _ k => exists l, c' = k l
    | Write _ _ k | Free _ k => c' = k
    | Malloc _ k => exists p, c' = k p
    | Errno k => exists b, c' = k b
    | _ => False
    end.
  Lemma child_acc : forall c, Acc child c.
  Proof. induction c as [a|n k IH|n x k IH|o k IH|p k IH|k IH| |]; constructor; intros c' H; cbn in H; try contradiction; try (destruct H as (? & ->)); subst; auto. Qed.
  Inductive lchild : list (code A) -> list (code A) -> Prop :=
  | lc : forall a c c' b, child c' c -> lchild (a ++ c' :: b) (a ++ c :: b).
  Lemma lchild_cons : forall c, Acc child c -> forall l, Acc lchild l -> Acc lchild (c :: l).
  Proof.
    intros c Hc. induction Hc as [c Hc IHc]. intros l Hl. induction Hl as [l Hl IHl]. constructor. intros y Hy.
    inversion Hy as [a d d' b H E1 E2]; subst. destruct a as [|x a]; cbn in E2; injection E2; intros; subst.
    - cbn. apply IHc; auto. constructor. exact Hl.
    - cbn. apply IHl. constructor. exact H.
  Qed.
  Lemma lchild_acc : forall l, Acc lchild l.
  Proof. induction l as [|c l IH]; [constructor; intros y H; inversion H as [a c c' b X Y Z]; destruct a; discriminate|]. apply lchild_cons; [apply child_acc|exact IH]. Qed.
  Lemma tstep_child : forall G t G' t', tstep spoil G t G' t' -> child (todo t') (todo t).
  Proof. intros G t G' t' H. destruct H; cbn; eauto. Qed.
  Theorem all_end : forall s : @system A, Acc (fun s2 s1 => sstep spoil s1 s2) s.
  Proof.
    intros [G ts]. remember (map todo ts) as cs eqn:E. revert G ts E. induction (lchild_acc cs) as [cs _ IH]. intros G ts ->. constructor. intros s' H.
    inversion H as [G1 G' a t t' b T E1 E2]; subst. apply (IH (map todo (a ++ t' :: b))); auto.
    rewrite !map_app. cbn. constructor. exact (tstep_child _ _ _ _ T).
  Qed.
End System.
