(** Running the memory-level functions: each of them does what its counterpart
    without memory does, or reports a failed allocation. *)
From Verif Require Import Base Uenv DataTypes Bsearch Tables Gentr46 Tr46Map Utf8 Bidi Context Idna Puny Lookup Api Register
  LookupProofs NfcProofs NonZero NoFail ApiProofs Heap SpecHeap.

Lemma safe_left : forall A B (m : out A) (f : A -> out B), safe (bind m f) -> safe m.
Proof. intros A B [a|rc| |] f H; cbn [bind safe] in *; tauto. Qed.
Lemma safe_right : forall A B (m : out A) (f : A -> out B) a, safe (bind m f) -> m = Ok a -> safe (f a).
Proof. intros A B m f a H ->. exact H. Qed.

(** ** Blocks *)
Definition below (L : list (nat * list Z)) (f : nat) : Prop := forall n l, In (n, l) L -> (n < f)%nat.
Lemma below_mono : forall L f f', below L f -> (f <= f')%nat -> below L f'.
Proof. intros L f f' H G n l I. specialize (H n l I). lia. Qed.
Lemma below_cons : forall L n l f, below L f -> (n < f)%nat -> below ((n, l) :: L) f.
Proof. intros L n l f H G m x [E|I]; [|eauto]. injection E as <- <-. exact G. Qed.
Lemma below_tail : forall L n l f, below ((n, l) :: L) f -> below L f.
Proof. intros L n l f H m x I. apply (H m x). now right. Qed.
#[export] Hint Resolve below_cons : blk.
Lemma find_below : forall L f n, below L f -> (f <= n)%nat -> find_block n L = None.
Proof.
  intros L f n H G. induction L as [|[m x] L IH]; [reflexivity|]. cbn [find_block].
  pose proof (H m x (or_introl eq_refl)). rewrite (proj2 (Nat.eqb_neq m n)) by lia. apply IH. now apply below_tail in H.
Qed.
Lemma find_mem : forall L n l, find_block n L = Some l -> In (n, l) L.
Proof.
  induction L as [|[m x] L IH]; intros n l; cbn [find_block]; [discriminate|].
  destruct (Nat.eqb_spec m n) as [->|N]; intros E; [injection E as ->; now left|right; now apply IH].
Qed.

(** ** Triples *)
Definition run {A} (m : M A) (h : heap) (Q : A -> heap -> Prop) : Prop :=
  match m h with Ok (a, h') => Q a h' | _ => False end.
Lemma run_bind : forall A B (m : M A) (k : A -> M B) h Q, run m h (fun a h' => run (k a) h' Q) -> run (hbind m k) h Q.
Proof. intros A B m k h Q. unfold run, hbind. destruct (m h) as [[a h']| | |]; cbn [bind]; auto. Qed.
Lemma run_assoc : forall A B C (m : M A) (k : A -> M B) (g : B -> M C) h Q,
  run (hbind m (fun a => hbind (k a) g)) h Q -> run (hbind (hbind m k) g) h Q.
Proof. intros A B C m k g h Q. unfold run, hbind. destruct (m h) as [[a h']| | |]; cbn [bind]; auto. Qed.
Lemma run_ret : forall A (a : A) h (Q : A -> heap -> Prop), Q a h -> run (ret a) h Q.
Proof. intros. exact H. Qed.
Lemma run_try : forall A (m : out A) h (Q : A + Z -> heap -> Prop), safe m ->
  (forall a, m = Ok a -> Q (inl a) h) -> (forall rc, m = Fail rc -> Q (inr rc) h) -> run (try m) h Q.
Proof. intros A [a|rc| |] h Q S G H; unfold run, try; cbn [safe] in S; auto. Qed.
Lemma run_must : forall A (m : out A) h (Q : A -> heap -> Prop), safe m -> nf m -> (forall a, m = Ok a -> Q a h) -> run (must m) h Q.
Proof. intros A [a|rc| |] h Q S N G; unfold run, must; cbn [safe] in S; auto. now apply (N rc). Qed.

Definition alive (a : addr) (L : list (nat * list Z)) (l : list Z) : Prop :=
  match a with Caller s => s = l | Block n => find_block n L = Some l end.
Definition there (a : addr) (L : list (nat * list Z)) : Prop := exists l, alive a L l.
Definition reads (a : addr) (L : list (nat * list Z)) (s : list Z) : Prop :=
  match a with Caller l => l = s | Block n => exists l, find_block n L = Some l /\ upto0 l = s end.
Lemma alive_there : forall a L l, alive a L l -> there a L. Proof. intros. now exists l. Qed.
Lemma reads_there : forall a L s, reads a L s -> there a L.
Proof. intros [l|n] L s; cbn; [intros ->; now exists s|intros (l & F & _); now exists l]. Qed.
Lemma there_cons : forall a L f n l, there a L -> below L f -> (f <= n)%nat -> there a ((n, l) :: L).
Proof.
  intros [s|m] L f n l (x & A) B G; [now exists s|]. exists x. cbn [alive find_block] in *.
  apply find_mem in A as I. specialize (B m x I). now rewrite (proj2 (Nat.eqb_neq n m)) by lia.
Qed.
Lemma reads_cons : forall a L f n l s, reads a L s -> below L f -> (f <= n)%nat -> reads a ((n, l) :: L) s.
Proof.
  intros [x|m] L f n l s A B G; [exact A|]. destruct A as (x & A & E). exists x. cbn [find_block] in *.
  apply find_mem in A as I. specialize (B m x I). now rewrite (proj2 (Nat.eqb_neq n m)) by lia.
Qed.
Lemma alive_cons : forall a L f n l s, alive a L s -> below L f -> (f <= n)%nat -> alive a ((n, l) :: L) s.
Proof.
  intros [x|m] L f n l s A B G; [exact A|]. cbn [alive find_block] in *.
  apply find_mem in A as I. specialize (B m s I). now rewrite (proj2 (Nat.eqb_neq n m)) by lia.
Qed.
Lemma there_caller : forall l L, there (Caller l) L. Proof. intros. now exists l. Qed.
#[export] Hint Resolve there_cons reads_cons alive_cons there_caller alive_there reads_there : blk.

Lemma run_load : forall a L f c e l (Q : list Z -> heap -> Prop), alive a L l -> Q l (Heap L f c e) -> run (load a) (Heap L f c e) Q.
Proof. intros [s|n] L f c e l Q A H; unfold run, load; cbn [alive live] in *; [now subst|now rewrite A]. Qed.
Lemma run_touch : forall a L f c e (Q : unit -> heap -> Prop), there a L -> Q tt (Heap L f c e) -> run (touch a) (Heap L f c e) Q.
Proof. intros a L f c e Q (l & A) H. unfold touch. apply run_bind. now apply (run_load a L f c e l). Qed.
Lemma run_cstr : forall a L f c e s (Q : list Z -> heap -> Prop), reads a L s -> Q s (Heap L f c e) -> run (cstr a) (Heap L f c e) Q.
Proof.
  intros [l|n] L f c e s Q R H; unfold cstr; apply run_bind; cbn [reads] in R.
  - subst. apply (run_load (Caller s) L f c e s); [reflexivity|]. exact H.
  - destruct R as (l & A & <-). apply (run_load (Block n) L f c e l); [exact A|]. exact H.
Qed.
Lemma run_fill : forall n x L f c e (Q : unit -> heap -> Prop) l, find_block n L = Some l -> Q tt (Heap (fill_block n x L) f c e) ->
  run (fill n x) (Heap L f c e) Q.
Proof. intros n x L f c e Q l A H. unfold run, fill. cbn [live]. now rewrite A. Qed.

Definition denies (E : allocator) (n : nat) : Prop := exists k, fails E n k = true.

Section Mem.
  Variable E : allocator.
  Variable U : uenv.

  Lemma run_acquire : forall o L f c e (Q : option nat -> heap -> Prop),
    (denies E c -> Q None (Heap L f (S c) ENOMEM)) -> (o = None -> Q None (Heap L f (S c) EILSEQ)) ->
    (forall l, o = Some l -> Q (Some f) (Heap ((f, l) :: L) (S f) (S c) e)) -> run (acquire E o) (Heap L f c e) Q.
  Proof.
    intros o L f c e Q H1 H2 H3. unfold run, acquire. cbn [calls live fresh errno].
    destruct (fails E c _) eqn:F; [apply H1; eexists; exact F|]. destruct o; auto.
  Qed.
  Definition after_free (c : nat) (e : Z) : Z := match spoils E c with Some x => x | None => e end.
  Lemma run_free : forall n L f c e (Q : unit -> heap -> Prop) l, find_block n L = Some l ->
    Q tt (Heap (drop_block n L) f (S c) (after_free c e)) -> run (free E (Some n)) (Heap L f c e) Q.
  Proof. intros n L f c e Q l A H. unfold run, free. cbn [calls live fresh errno]. rewrite A. exact H. Qed.
  Lemma run_free_null : forall L f c e (Q : unit -> heap -> Prop),
    Q tt (Heap L f (S c) (after_free c e)) -> run (free E None) (Heap L f c e) Q.
  Proof. intros. exact H. Qed.
  Lemma run_free_top : forall n l L f c e (Q : unit -> heap -> Prop),
    Q tt (Heap L f (S c) (after_free c e)) -> run (free E (Some n)) (Heap ((n, l) :: L) f c e) Q.
  Proof.
    intros n l L f c e Q H. apply (run_free n _ f c e Q l); cbn [find_block drop_block]; now rewrite Nat.eqb_refl.
  Qed.
  Lemma run_free_second : forall n l m k L f c e (Q : unit -> heap -> Prop), n <> m ->
    Q tt (Heap ((m, k) :: L) f (S c) (after_free c e)) -> run (free E (Some n)) (Heap ((m, k) :: (n, l) :: L) f c e) Q.
  Proof.
    intros n l m k L f c e Q N H. assert (N' : Nat.eqb m n = false) by (apply Nat.eqb_neq; congruence).
    apply (run_free n _ f c e Q l); cbn [find_block drop_block]; now rewrite N', Nat.eqb_refl.
  Qed.

  (** A failure to which memory contributed: an allocation made from call [c]
      on failed and was reported, or errno was overwritten by free. *)
  Definition starved (c c' : nat) (rc : Z) : Prop :=
    (exists n, (c <= n < c')%nat /\ denies E n /\ rc = IDN2_MALLOC) \/
    (exists n, (c <= n < c')%nat /\ spoils E n <> None /\ (rc = IDN2_MALLOC \/ rc = IDN2_ENCODING_ERROR \/ rc = IDN2_NFC)).
  Lemma starved_widen : forall a b a' b' rc, starved a b rc -> (a' <= a)%nat -> (b <= b')%nat -> starved a' b' rc.
  Proof.
    intros a b a' b' rc [(n & R & H)|(n & R & H)] G1 G2; [left|right]; exists n; (split; [lia|exact H]).
  Qed.
  Lemma starved_here : forall a b n, denies E n -> (a <= n < b)%nat -> starved a b IDN2_MALLOC.
  Proof. intros a b n H G. left. exists n. auto. Qed.
  Lemma starved_nz : forall a b rc, starved a b rc -> rc <> IDN2_OK.
  Proof. intros a b rc [(n & _ & _ & ->)|(n & _ & _ & [->|[->| ->]])]; discriminate. Qed.

  (** The way a function fails. *)
  Definition bad {A} (c c' : nat) (m : out A) (rc : Z) : Prop := rc <> IDN2_OK /\ (m = Fail rc \/ starved c c' rc).
  Lemma bad_fail : forall A (m : out A) c c' rc, m = Fail rc -> nz m -> bad c c' m rc.
  Proof. intros A m c c' rc H N. split; [now apply N|now left]. Qed.
  Lemma bad_here : forall A c c' rc, rc <> IDN2_OK -> bad c c' (@Fail A rc) rc.
  Proof. intros A c c' rc H. split; [exact H|now left]. Qed.
  Lemma bad_starved : forall A (m : out A) a b c c' rc, starved a b rc -> (c <= a)%nat -> (b <= c')%nat -> bad c c' m rc.
  Proof. intros A m a b c c' rc H G1 G2. split; [now apply (starved_nz a b)|right; now apply (starved_widen a b)]. Qed.
  Lemma bad_widen : forall A B (m : out A) (m' : out B) a b c c' rc, bad a b m rc -> (m = Fail rc -> m' = Fail rc) ->
    (c <= a)%nat -> (b <= c')%nat -> bad c c' m' rc.
  Proof. intros A B m m' a b c c' rc (N & [H|H]) G G1 G2; split; auto. right. now apply (starved_widen a b). Qed.

  (** Reading errno right after a failure, and after one free. *)
  Lemma run_or : forall x L f c e (Q : Z -> heap -> Prop), Q (if e =? ENOMEM then IDN2_MALLOC else x) (Heap L f c e) ->
    run (no_memory_or x) (Heap L f c e) Q.
  Proof. intros. exact H. Qed.
  Lemma failed_now : forall A (m : out A) x c0 c, denies E c -> (c0 <= c)%nat ->
    bad c0 (S c) m (if ENOMEM =? ENOMEM then IDN2_MALLOC else x).
  Proof. intros A m x c0 c H G. cbn. split; [discriminate|]. right. apply (starved_here _ _ c); [assumption|lia]. Qed.
  Lemma refused_now : forall A (m : out A) x c0 c, x <> IDN2_OK -> m = Fail x ->
    bad c0 (S c) m (if EILSEQ =? ENOMEM then IDN2_MALLOC else x).
  Proof. intros A m x c0 c N H. cbn. split; auto. Qed.
  Definition spoilable (x : Z) : Prop := x = IDN2_ENCODING_ERROR \/ x = IDN2_NFC.
  Lemma failed_then : forall A (m : out A) x c0 c c1, spoilable x -> denies E c -> (c0 <= c)%nat -> (c < c1)%nat ->
    bad c0 (S c1) m (if after_free c1 ENOMEM =? ENOMEM then IDN2_MALLOC else x).
  Proof.
    intros A m x c0 c c1 X H G G1. unfold after_free. destruct (spoils E c1) as [y|] eqn:Sp; cbv zeta.
    - assert (R : (if y =? ENOMEM then IDN2_MALLOC else x) = IDN2_MALLOC \/ (if y =? ENOMEM then IDN2_MALLOC else x) = IDN2_ENCODING_ERROR
        \/ (if y =? ENOMEM then IDN2_MALLOC else x) = IDN2_NFC) by (destruct (y =? ENOMEM); destruct X as [->| ->]; auto).
      split; [destruct R as [->|[->| ->]]; discriminate|]. right. right. exists c1. split; [lia|]. split; [congruence|exact R].
    - cbn. split; [discriminate|]. right. apply (starved_here _ _ c); [assumption|lia].
  Qed.
  Lemma refused_then : forall A (m : out A) x c0 c1, spoilable x -> m = Fail x -> (c0 <= c1)%nat ->
    bad c0 (S c1) m (if after_free c1 EILSEQ =? ENOMEM then IDN2_MALLOC else x).
  Proof.
    intros A m x c0 c1 X H G. unfold after_free. destruct (spoils E c1) as [y|] eqn:Sp; cbv zeta.
    - assert (R : (if y =? ENOMEM then IDN2_MALLOC else x) = IDN2_MALLOC \/ (if y =? ENOMEM then IDN2_MALLOC else x) = IDN2_ENCODING_ERROR
        \/ (if y =? ENOMEM then IDN2_MALLOC else x) = IDN2_NFC) by (destruct (y =? ENOMEM); destruct X as [->| ->]; auto).
      split; [destruct R as [->|[->| ->]]; discriminate|]. right. right. exists c1. split; [lia|]. split; [congruence|exact R].
    - cbn. split; [destruct X as [->| ->]; discriminate|]. auto.
  Qed.
End Mem.
