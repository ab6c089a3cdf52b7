(** Every function of Heap.v is a sequence of memory operations. *)
From Verif Require Import Base Uenv Puny Utf8 Bidi Context Idna Lookup Api Register Heap Thread.

Record coded {A} (m : allocator -> M A) : Type := Coded { text : code A; text_ok : is_code text m }.
Arguments text {A m}. Arguments text_ok {A m}. Arguments Coded {A m}.

Fixpoint cbind {A B} (c : code A) (f : A -> code B) : code B :=
  match c with
  | Done a => f a
  | Read n k => Read n (fun l => cbind (k l) f)
  | Write n x k => Write n x (cbind k f)
  | Malloc o k => Malloc o (fun p => cbind (k p) f)
  | Free p k => Free p (cbind k f)
  | Errno k => Errno (fun b => cbind (k b) f)
  | Wrong => Wrong
  | Spin => Spin
  end.
Lemma alone_bind : forall A B E (c : code A) (f : A -> code B) h, alone E (cbind c f) h = hbind (alone E c) (fun a => alone E (f a)) h.
Proof.
  intros A B E c f. induction c as [a|n k IH|n x k IH|o k IH|p k IH|k IH| |]; intros h; cbn [cbind alone]; unfold hbind; cbn [bind]; auto.
  - destruct (load (Block n) h) as [[l h']| | |]; cbn [bind]; auto. rewrite IH. reflexivity.
  - destruct (fill n x h) as [[l h']| | |]; cbn [bind]; auto. rewrite IH. reflexivity.
  - destruct (acquire E o h) as [[l h']| | |]; cbn [bind]; auto. rewrite IH. reflexivity.
  - destruct (free E p h) as [[l h']| | |]; cbn [bind]; auto. rewrite IH. reflexivity.
  - destruct (nomem h) as [[l h']| | |]; cbn [bind]; auto. rewrite IH. reflexivity.
Qed.

Section Build.
  Lemma coded_ret : forall A (a : A), coded (fun _ => ret a).
  Proof. intros A a. exists (Done a). intros E h. reflexivity. Defined.
  Lemma coded_bind : forall A B (m : allocator -> M A) (k : allocator -> A -> M B),
    coded m -> (forall a, coded (fun E => k E a)) -> coded (fun E => hbind (m E) (k E)).
  Proof.
    intros A B m k (c & C) K. exists (cbind c (fun a => text (K a))). intros E h. rewrite alone_bind. unfold hbind. rewrite (C E h).
    destruct (alone E c h) as [[a h']| | |]; cbn [bind]; auto. apply (text_ok (K a)).
  Defined.
  Lemma coded_undef : forall A, coded (fun _ => @undef A).
  Proof. intros A. exists Wrong. intros E h. reflexivity. Defined.
  Lemma coded_load : forall a, coded (fun _ => load a).
  Proof.
    intros [l|n]; [exists (Done l); intros E h; reflexivity|]. exists (Read n (fun l => Done l)). intros E h. cbn [alone]. unfold hbind.
    destruct (load (Block n) h) as [[l h']| | |]; reflexivity.
  Defined.
  Lemma coded_fill : forall n x, coded (fun _ => fill n x).
  Proof. intros n x. exists (Write n x (Done tt)). intros E h. cbn [alone]. unfold hbind. destruct (fill n x h) as [[[] h']| | |]; reflexivity. Defined.
  Lemma coded_acquire : forall o, coded (fun E => acquire E o).
  Proof. intros o. exists (Malloc o (fun p => Done p)). intros E h. cbn [alone]. unfold hbind. destruct (acquire E o h) as [[p h']| | |]; reflexivity. Defined.
  Lemma coded_free : forall p, coded (fun E => free E p).
  Proof. intros p. exists (Free p (Done tt)). intros E h. cbn [alone]. unfold hbind. destruct (free E p h) as [[[] h']| | |]; reflexivity. Defined.
  Lemma coded_nomem : coded (fun _ => nomem).
  Proof. exists (Errno (fun b => Done b)). intros E h. cbn [alone]. unfold hbind. destruct (nomem h) as [[b h']| | |]; reflexivity. Defined.
  Lemma coded_try : forall A (m : out A), coded (fun _ => try m).
  Proof. intros A [a|rc| |]; [exists (Done (inl a))|exists (Done (inr rc))|exists Wrong|exists Spin]; intros E h; reflexivity. Defined.
  Lemma coded_must : forall A (m : out A), coded (fun _ => must m).
  Proof. intros A [a|rc| |]; [exists (Done a)|exists Wrong|exists Wrong|exists Spin]; intros E h; reflexivity. Defined.
  Lemma coded_ext : forall A (m m' : allocator -> M A), (forall E h, m' E h = m E h) -> coded m -> coded m'.
  Proof. intros A m m' H (c & C). exists c. intros E h. rewrite H. apply C. Defined.
End Build.

Ltac op :=
  lazymatch goal with
  | |- coded (fun E => ret _) => apply coded_ret
  | |- coded (fun E => undef) => apply coded_undef
  | |- coded (fun E => load _) => apply coded_load
  | |- coded (fun E => fill _ _) => apply coded_fill
  | |- coded (fun E => acquire E _) => apply coded_acquire
  | |- coded (fun E => free E _) => apply coded_free
  | |- coded (fun E => nomem) => apply coded_nomem
  | |- coded (fun E => try _) => apply coded_try
  | |- coded (fun E => must _) => apply coded_must
  | |- coded (fun E => hbind (@?m E) (@?k E)) => apply (coded_bind _ _ m k); [|intros ?]
  end.
Ltac split_case :=
  lazymatch goal with
  | |- coded (fun _ => match ?x with _ => _ end) => destruct x
  end.
Ltac codes := cbv beta zeta; repeat (first [ op | split_case ]; cbv beta zeta).

Lemma coded_touch : forall a, coded (fun _ => touch a).
Proof. intros a. unfold touch. codes. Defined.
Lemma coded_cstr : forall a, coded (fun _ => cstr a).
Proof. intros a. unfold cstr. codes. Defined.
Lemma coded_local : forall p, coded (fun _ => local p).
Proof. intros [n|]; unfold local; codes. Defined.
Lemma coded_no_memory_or : forall rc, coded (fun _ => no_memory_or rc).
Proof. intros rc. unfold no_memory_or. codes. Defined.

Section Functions.
  Variable U : uenv.
  Variable L : locale.
  Ltac op ::=
    lazymatch goal with
    | |- coded (fun E => ret _) => apply coded_ret
    | |- coded (fun E => undef) => apply coded_undef
    | |- coded (fun E => load _) => apply coded_load
    | |- coded (fun E => fill _ _) => apply coded_fill
    | |- coded (fun E => acquire E _) => apply coded_acquire
    | |- coded (fun E => free E _) => apply coded_free
    | |- coded (fun E => nomem) => apply coded_nomem
    | |- coded (fun E => try _) => apply coded_try
    | |- coded (fun E => must _) => apply coded_must
    | |- coded (fun E => touch _) => apply coded_touch
    | |- coded (fun E => cstr _) => apply coded_cstr
    | |- coded (fun E => local _) => apply coded_local
    | |- coded (fun E => no_memory_or _) => apply coded_no_memory_or
    | |- coded (fun E => hbind (@?m E) (@?k E)) => apply (coded_bind _ _ m k); [|intros ?]
    end.
  Lemma c_m_u8_to_u32_nfc : forall a s nfc old, coded (fun E => m_u8_to_u32_nfc E U a s nfc old).
  Proof. intros. unfold m_u8_to_u32_nfc. codes. Defined.
  Ltac op ::=
    lazymatch goal with
    | |- coded (fun E => ret _) => apply coded_ret
    | |- coded (fun E => undef) => apply coded_undef
    | |- coded (fun E => load _) => apply coded_load
    | |- coded (fun E => fill _ _) => apply coded_fill
    | |- coded (fun E => acquire E _) => apply coded_acquire
    | |- coded (fun E => free E _) => apply coded_free
    | |- coded (fun E => nomem) => apply coded_nomem
    | |- coded (fun E => try _) => apply coded_try
    | |- coded (fun E => must _) => apply coded_must
    | |- coded (fun E => touch _) => apply coded_touch
    | |- coded (fun E => cstr _) => apply coded_cstr
    | |- coded (fun E => local _) => apply coded_local
    | |- coded (fun E => no_memory_or _) => apply coded_no_memory_or
    | |- coded (fun E => m_u8_to_u32_nfc E _ _ _ _ _) => apply c_m_u8_to_u32_nfc
    | |- coded (fun E => hbind (@?m E) (@?k E)) => apply (coded_bind _ _ m k); [|intros ?]
    end.
  Lemma c_m_label_test : forall what a label, coded (fun E => m_label_test E U what a label).
  Proof. intros. unfold m_label_test. codes. Defined.
  Ltac op ::=
    lazymatch goal with
    | |- coded (fun E => ret _) => apply coded_ret
    | |- coded (fun E => undef) => apply coded_undef
    | |- coded (fun E => load _) => apply coded_load
    | |- coded (fun E => fill _ _) => apply coded_fill
    | |- coded (fun E => acquire E _) => apply coded_acquire
    | |- coded (fun E => free E _) => apply coded_free
    | |- coded (fun E => nomem) => apply coded_nomem
    | |- coded (fun E => try _) => apply coded_try
    | |- coded (fun E => must _) => apply coded_must
    | |- coded (fun E => touch _) => apply coded_touch
    | |- coded (fun E => cstr _) => apply coded_cstr
    | |- coded (fun E => local _) => apply coded_local
    | |- coded (fun E => no_memory_or _) => apply coded_no_memory_or
    | |- coded (fun E => m_u8_to_u32_nfc E _ _ _ _ _) => apply c_m_u8_to_u32_nfc
    | |- coded (fun E => m_label_test E _ _ _ _) => apply c_m_label_test
    | |- coded (fun E => hbind (@?m E) (@?k E)) => apply (coded_bind _ _ m k); [|intros ?]
    end.
  Lemma c_m_label_tail : forall a s org sa dstlen flags, coded (fun E => m_label_tail E U a s org sa dstlen flags).
  Proof. intros. unfold m_label_tail. codes. Defined.
  Ltac op ::=
    lazymatch goal with
    | |- coded (fun E => ret _) => apply coded_ret
    | |- coded (fun E => undef) => apply coded_undef
    | |- coded (fun E => load _) => apply coded_load
    | |- coded (fun E => fill _ _) => apply coded_fill
    | |- coded (fun E => acquire E _) => apply coded_acquire
    | |- coded (fun E => free E _) => apply coded_free
    | |- coded (fun E => nomem) => apply coded_nomem
    | |- coded (fun E => try _) => apply coded_try
    | |- coded (fun E => must _) => apply coded_must
    | |- coded (fun E => touch _) => apply coded_touch
    | |- coded (fun E => cstr _) => apply coded_cstr
    | |- coded (fun E => local _) => apply coded_local
    | |- coded (fun E => no_memory_or _) => apply coded_no_memory_or
    | |- coded (fun E => m_u8_to_u32_nfc E _ _ _ _ _) => apply c_m_u8_to_u32_nfc
    | |- coded (fun E => m_label_test E _ _ _ _) => apply c_m_label_test
    | |- coded (fun E => m_label_tail E _ _ _ _ _ _ _) => apply c_m_label_tail
    | |- coded (fun E => hbind (@?m E) (@?k E)) => apply (coded_bind _ _ m k); [|intros ?]
    end.
  Lemma c_m_label : forall a src dstlen flags, coded (fun E => m_label E U a src dstlen flags).
  Proof. intros. unfold m_label. codes. Defined.
  Ltac op ::=
    lazymatch goal with
    | |- coded (fun E => ret _) => apply coded_ret
    | |- coded (fun E => undef) => apply coded_undef
    | |- coded (fun E => load _) => apply coded_load
    | |- coded (fun E => fill _ _) => apply coded_fill
    | |- coded (fun E => acquire E _) => apply coded_acquire
    | |- coded (fun E => free E _) => apply coded_free
    | |- coded (fun E => nomem) => apply coded_nomem
    | |- coded (fun E => try _) => apply coded_try
    | |- coded (fun E => must _) => apply coded_must
    | |- coded (fun E => touch _) => apply coded_touch
    | |- coded (fun E => cstr _) => apply coded_cstr
    | |- coded (fun E => local _) => apply coded_local
    | |- coded (fun E => no_memory_or _) => apply coded_no_memory_or
    | |- coded (fun E => m_u8_to_u32_nfc E _ _ _ _ _) => apply c_m_u8_to_u32_nfc
    | |- coded (fun E => m_label_test E _ _ _ _) => apply c_m_label_test
    | |- coded (fun E => m_label_tail E _ _ _ _ _ _ _) => apply c_m_label_tail
    | |- coded (fun E => m_label E _ _ _ _ _) => apply c_m_label
    | |- coded (fun E => hbind (@?m E) (@?k E)) => apply (coded_bind _ _ m k); [|intros ?]
    end.
  Lemma c_m_tr46_checks : forall d flags labels err, coded (fun E => m_tr46_checks E U d flags labels err).
  Proof. intros d flags labels. induction labels as [|l r IH]; intros err; cbn [m_tr46_checks]; codes; apply IH. Defined.
  Ltac op ::=
    lazymatch goal with
    | |- coded (fun E => ret _) => apply coded_ret
    | |- coded (fun E => undef) => apply coded_undef
    | |- coded (fun E => load _) => apply coded_load
    | |- coded (fun E => fill _ _) => apply coded_fill
    | |- coded (fun E => acquire E _) => apply coded_acquire
    | |- coded (fun E => free E _) => apply coded_free
    | |- coded (fun E => nomem) => apply coded_nomem
    | |- coded (fun E => try _) => apply coded_try
    | |- coded (fun E => must _) => apply coded_must
    | |- coded (fun E => touch _) => apply coded_touch
    | |- coded (fun E => cstr _) => apply coded_cstr
    | |- coded (fun E => local _) => apply coded_local
    | |- coded (fun E => no_memory_or _) => apply coded_no_memory_or
    | |- coded (fun E => m_u8_to_u32_nfc E _ _ _ _ _) => apply c_m_u8_to_u32_nfc
    | |- coded (fun E => m_label_test E _ _ _ _) => apply c_m_label_test
    | |- coded (fun E => m_label_tail E _ _ _ _ _ _ _) => apply c_m_label_tail
    | |- coded (fun E => m_label E _ _ _ _ _) => apply c_m_label
    | |- coded (fun E => m_tr46_checks E _ _ _ _ _) => apply c_m_tr46_checks
    | |- coded (fun E => hbind (@?m E) (@?k E)) => apply (coded_bind _ _ m k); [|intros ?]
    end.
  Lemma c_m_tr46 : forall a flags old, coded (fun E => m_tr46 E U a flags old).
  Proof. intros. unfold m_tr46. codes. Defined.
  Ltac op ::=
    lazymatch goal with
    | |- coded (fun E => ret _) => apply coded_ret
    | |- coded (fun E => undef) => apply coded_undef
    | |- coded (fun E => load _) => apply coded_load
    | |- coded (fun E => fill _ _) => apply coded_fill
    | |- coded (fun E => acquire E _) => apply coded_acquire
    | |- coded (fun E => free E _) => apply coded_free
    | |- coded (fun E => nomem) => apply coded_nomem
    | |- coded (fun E => try _) => apply coded_try
    | |- coded (fun E => must _) => apply coded_must
    | |- coded (fun E => touch _) => apply coded_touch
    | |- coded (fun E => cstr _) => apply coded_cstr
    | |- coded (fun E => local _) => apply coded_local
    | |- coded (fun E => no_memory_or _) => apply coded_no_memory_or
    | |- coded (fun E => m_u8_to_u32_nfc E _ _ _ _ _) => apply c_m_u8_to_u32_nfc
    | |- coded (fun E => m_label_test E _ _ _ _) => apply c_m_label_test
    | |- coded (fun E => m_label_tail E _ _ _ _ _ _ _) => apply c_m_label_tail
    | |- coded (fun E => m_label E _ _ _ _ _) => apply c_m_label
    | |- coded (fun E => m_tr46_checks E _ _ _ _ _) => apply c_m_tr46_checks
    | |- coded (fun E => m_tr46 E _ _ _ _) => apply c_m_tr46
    | |- coded (fun E => hbind (@?m E) (@?k E)) => apply (coded_bind _ _ m k); [|intros ?]
    end.
  Lemma c_m_lookup_labels : forall a sa flags labels acc, coded (fun E => m_lookup_labels E U a sa flags labels acc).
  Proof. intros a sa flags labels. induction labels as [|l r IH]; intros acc; cbn [m_lookup_labels]; codes; apply IH. Defined.
  Ltac op ::=
    lazymatch goal with
    | |- coded (fun E => ret _) => apply coded_ret
    | |- coded (fun E => undef) => apply coded_undef
    | |- coded (fun E => load _) => apply coded_load
    | |- coded (fun E => fill _ _) => apply coded_fill
    | |- coded (fun E => acquire E _) => apply coded_acquire
    | |- coded (fun E => free E _) => apply coded_free
    | |- coded (fun E => nomem) => apply coded_nomem
    | |- coded (fun E => try _) => apply coded_try
    | |- coded (fun E => must _) => apply coded_must
    | |- coded (fun E => touch _) => apply coded_touch
    | |- coded (fun E => cstr _) => apply coded_cstr
    | |- coded (fun E => local _) => apply coded_local
    | |- coded (fun E => no_memory_or _) => apply coded_no_memory_or
    | |- coded (fun E => m_u8_to_u32_nfc E _ _ _ _ _) => apply c_m_u8_to_u32_nfc
    | |- coded (fun E => m_label_test E _ _ _ _) => apply c_m_label_test
    | |- coded (fun E => m_label_tail E _ _ _ _ _ _ _) => apply c_m_label_tail
    | |- coded (fun E => m_label E _ _ _ _ _) => apply c_m_label
    | |- coded (fun E => m_tr46_checks E _ _ _ _ _) => apply c_m_tr46_checks
    | |- coded (fun E => m_tr46 E _ _ _ _) => apply c_m_tr46
    | |- coded (fun E => m_lookup_labels E _ _ _ _ _ _) => apply c_m_lookup_labels
    | |- coded (fun E => hbind (@?m E) (@?k E)) => apply (coded_bind _ _ m k); [|intros ?]
    end.
  Lemma c_hand_out : forall o r, coded (fun E => hand_out E o r).
  Proof. intros. unfold hand_out. codes. Defined.
  Ltac op ::=
    lazymatch goal with
    | |- coded (fun E => ret _) => apply coded_ret
    | |- coded (fun E => undef) => apply coded_undef
    | |- coded (fun E => load _) => apply coded_load
    | |- coded (fun E => fill _ _) => apply coded_fill
    | |- coded (fun E => acquire E _) => apply coded_acquire
    | |- coded (fun E => free E _) => apply coded_free
    | |- coded (fun E => nomem) => apply coded_nomem
    | |- coded (fun E => try _) => apply coded_try
    | |- coded (fun E => must _) => apply coded_must
    | |- coded (fun E => touch _) => apply coded_touch
    | |- coded (fun E => cstr _) => apply coded_cstr
    | |- coded (fun E => local _) => apply coded_local
    | |- coded (fun E => no_memory_or _) => apply coded_no_memory_or
    | |- coded (fun E => m_u8_to_u32_nfc E _ _ _ _ _) => apply c_m_u8_to_u32_nfc
    | |- coded (fun E => m_label_test E _ _ _ _) => apply c_m_label_test
    | |- coded (fun E => m_label_tail E _ _ _ _ _ _ _) => apply c_m_label_tail
    | |- coded (fun E => m_label E _ _ _ _ _) => apply c_m_label
    | |- coded (fun E => m_tr46_checks E _ _ _ _ _) => apply c_m_tr46_checks
    | |- coded (fun E => m_tr46 E _ _ _ _) => apply c_m_tr46
    | |- coded (fun E => m_lookup_labels E _ _ _ _ _ _) => apply c_m_lookup_labels
    | |- coded (fun E => hand_out E _ _) => apply c_hand_out
    | |- coded (fun E => hbind (@?m E) (@?k E)) => apply (coded_bind _ _ m k); [|intros ?]
    end.
  Lemma c_m_lookup_u8 : forall junk src o flags, coded (fun E => m_lookup_u8 E U junk src o flags).
  Proof. intros. unfold m_lookup_u8. codes. Defined.
  Ltac op ::=
    lazymatch goal with
    | |- coded (fun E => ret _) => apply coded_ret
    | |- coded (fun E => undef) => apply coded_undef
    | |- coded (fun E => load _) => apply coded_load
    | |- coded (fun E => fill _ _) => apply coded_fill
    | |- coded (fun E => acquire E _) => apply coded_acquire
    | |- coded (fun E => free E _) => apply coded_free
    | |- coded (fun E => nomem) => apply coded_nomem
    | |- coded (fun E => try _) => apply coded_try
    | |- coded (fun E => must _) => apply coded_must
    | |- coded (fun E => touch _) => apply coded_touch
    | |- coded (fun E => cstr _) => apply coded_cstr
    | |- coded (fun E => local _) => apply coded_local
    | |- coded (fun E => no_memory_or _) => apply coded_no_memory_or
    | |- coded (fun E => m_u8_to_u32_nfc E _ _ _ _ _) => apply c_m_u8_to_u32_nfc
    | |- coded (fun E => m_label_test E _ _ _ _) => apply c_m_label_test
    | |- coded (fun E => m_label_tail E _ _ _ _ _ _ _) => apply c_m_label_tail
    | |- coded (fun E => m_label E _ _ _ _ _) => apply c_m_label
    | |- coded (fun E => m_tr46_checks E _ _ _ _ _) => apply c_m_tr46_checks
    | |- coded (fun E => m_tr46 E _ _ _ _) => apply c_m_tr46
    | |- coded (fun E => m_lookup_labels E _ _ _ _ _ _) => apply c_m_lookup_labels
    | |- coded (fun E => hand_out E _ _) => apply c_hand_out
    | |- coded (fun E => m_lookup_u8 E _ _ _ _ _) => apply c_m_lookup_u8
    | |- coded (fun E => hbind (@?m E) (@?k E)) => apply (coded_bind _ _ m k); [|intros ?]
    end.
  Lemma c_m_lookup_ul : forall junk src o flags, coded (fun E => m_lookup_ul E U L junk src o flags).
  Proof. intros. unfold m_lookup_ul. codes. Defined.
  Ltac op ::=
    lazymatch goal with
    | |- coded (fun E => ret _) => apply coded_ret
    | |- coded (fun E => undef) => apply coded_undef
    | |- coded (fun E => load _) => apply coded_load
    | |- coded (fun E => fill _ _) => apply coded_fill
    | |- coded (fun E => acquire E _) => apply coded_acquire
    | |- coded (fun E => free E _) => apply coded_free
    | |- coded (fun E => nomem) => apply coded_nomem
    | |- coded (fun E => try _) => apply coded_try
    | |- coded (fun E => must _) => apply coded_must
    | |- coded (fun E => touch _) => apply coded_touch
    | |- coded (fun E => cstr _) => apply coded_cstr
    | |- coded (fun E => local _) => apply coded_local
    | |- coded (fun E => no_memory_or _) => apply coded_no_memory_or
    | |- coded (fun E => m_u8_to_u32_nfc E _ _ _ _ _) => apply c_m_u8_to_u32_nfc
    | |- coded (fun E => m_label_test E _ _ _ _) => apply c_m_label_test
    | |- coded (fun E => m_label_tail E _ _ _ _ _ _ _) => apply c_m_label_tail
    | |- coded (fun E => m_label E _ _ _ _ _) => apply c_m_label
    | |- coded (fun E => m_tr46_checks E _ _ _ _ _) => apply c_m_tr46_checks
    | |- coded (fun E => m_tr46 E _ _ _ _) => apply c_m_tr46
    | |- coded (fun E => m_lookup_labels E _ _ _ _ _ _) => apply c_m_lookup_labels
    | |- coded (fun E => hand_out E _ _) => apply c_hand_out
    | |- coded (fun E => m_lookup_u8 E _ _ _ _ _) => apply c_m_lookup_u8
    | |- coded (fun E => m_lookup_ul E _ _ _ _ _ _) => apply c_m_lookup_ul
    | |- coded (fun E => hbind (@?m E) (@?k E)) => apply (coded_bind _ _ m k); [|intros ?]
    end.
  Lemma c_m_to_ascii_8z : forall junk src o flags, coded (fun E => m_to_ascii_8z E U junk src o flags).
  Proof. exact c_m_lookup_u8. Defined.
  Ltac op ::=
    lazymatch goal with
    | |- coded (fun E => ret _) => apply coded_ret
    | |- coded (fun E => undef) => apply coded_undef
    | |- coded (fun E => load _) => apply coded_load
    | |- coded (fun E => fill _ _) => apply coded_fill
    | |- coded (fun E => acquire E _) => apply coded_acquire
    | |- coded (fun E => free E _) => apply coded_free
    | |- coded (fun E => nomem) => apply coded_nomem
    | |- coded (fun E => try _) => apply coded_try
    | |- coded (fun E => must _) => apply coded_must
    | |- coded (fun E => touch _) => apply coded_touch
    | |- coded (fun E => cstr _) => apply coded_cstr
    | |- coded (fun E => local _) => apply coded_local
    | |- coded (fun E => no_memory_or _) => apply coded_no_memory_or
    | |- coded (fun E => m_u8_to_u32_nfc E _ _ _ _ _) => apply c_m_u8_to_u32_nfc
    | |- coded (fun E => m_label_test E _ _ _ _) => apply c_m_label_test
    | |- coded (fun E => m_label_tail E _ _ _ _ _ _ _) => apply c_m_label_tail
    | |- coded (fun E => m_label E _ _ _ _ _) => apply c_m_label
    | |- coded (fun E => m_tr46_checks E _ _ _ _ _) => apply c_m_tr46_checks
    | |- coded (fun E => m_tr46 E _ _ _ _) => apply c_m_tr46
    | |- coded (fun E => m_lookup_labels E _ _ _ _ _ _) => apply c_m_lookup_labels
    | |- coded (fun E => hand_out E _ _) => apply c_hand_out
    | |- coded (fun E => m_lookup_u8 E _ _ _ _ _) => apply c_m_lookup_u8
    | |- coded (fun E => m_lookup_ul E _ _ _ _ _ _) => apply c_m_lookup_ul
    | |- coded (fun E => m_to_ascii_8z E _ _ _ _ _) => apply c_m_to_ascii_8z
    | |- coded (fun E => hbind (@?m E) (@?k E)) => apply (coded_bind _ _ m k); [|intros ?]
    end.
  Lemma c_m_to_ascii_lz : forall junk src o flags, coded (fun E => m_to_ascii_lz E U L junk src o flags).
  Proof. exact c_m_lookup_ul. Defined.
  Ltac op ::=
    lazymatch goal with
    | |- coded (fun E => ret _) => apply coded_ret
    | |- coded (fun E => undef) => apply coded_undef
    | |- coded (fun E => load _) => apply coded_load
    | |- coded (fun E => fill _ _) => apply coded_fill
    | |- coded (fun E => acquire E _) => apply coded_acquire
    | |- coded (fun E => free E _) => apply coded_free
    | |- coded (fun E => nomem) => apply coded_nomem
    | |- coded (fun E => try _) => apply coded_try
    | |- coded (fun E => must _) => apply coded_must
    | |- coded (fun E => touch _) => apply coded_touch
    | |- coded (fun E => cstr _) => apply coded_cstr
    | |- coded (fun E => local _) => apply coded_local
    | |- coded (fun E => no_memory_or _) => apply coded_no_memory_or
    | |- coded (fun E => m_u8_to_u32_nfc E _ _ _ _ _) => apply c_m_u8_to_u32_nfc
    | |- coded (fun E => m_label_test E _ _ _ _) => apply c_m_label_test
    | |- coded (fun E => m_label_tail E _ _ _ _ _ _ _) => apply c_m_label_tail
    | |- coded (fun E => m_label E _ _ _ _ _) => apply c_m_label
    | |- coded (fun E => m_tr46_checks E _ _ _ _ _) => apply c_m_tr46_checks
    | |- coded (fun E => m_tr46 E _ _ _ _) => apply c_m_tr46
    | |- coded (fun E => m_lookup_labels E _ _ _ _ _ _) => apply c_m_lookup_labels
    | |- coded (fun E => hand_out E _ _) => apply c_hand_out
    | |- coded (fun E => m_lookup_u8 E _ _ _ _ _) => apply c_m_lookup_u8
    | |- coded (fun E => m_lookup_ul E _ _ _ _ _ _) => apply c_m_lookup_ul
    | |- coded (fun E => m_to_ascii_8z E _ _ _ _ _) => apply c_m_to_ascii_8z
    | |- coded (fun E => m_to_ascii_lz E _ _ _ _ _ _) => apply c_m_to_ascii_lz
    | |- coded (fun E => hbind (@?m E) (@?k E)) => apply (coded_bind _ _ m k); [|intros ?]
    end.
  Lemma c_pass_on : forall rc o p, coded (fun E => pass_on E rc o p).
  Proof. intros. unfold pass_on. codes. Defined.
  Ltac op ::=
    lazymatch goal with
    | |- coded (fun E => ret _) => apply coded_ret
    | |- coded (fun E => undef) => apply coded_undef
    | |- coded (fun E => load _) => apply coded_load
    | |- coded (fun E => fill _ _) => apply coded_fill
    | |- coded (fun E => acquire E _) => apply coded_acquire
    | |- coded (fun E => free E _) => apply coded_free
    | |- coded (fun E => nomem) => apply coded_nomem
    | |- coded (fun E => try _) => apply coded_try
    | |- coded (fun E => must _) => apply coded_must
    | |- coded (fun E => touch _) => apply coded_touch
    | |- coded (fun E => cstr _) => apply coded_cstr
    | |- coded (fun E => local _) => apply coded_local
    | |- coded (fun E => no_memory_or _) => apply coded_no_memory_or
    | |- coded (fun E => m_u8_to_u32_nfc E _ _ _ _ _) => apply c_m_u8_to_u32_nfc
    | |- coded (fun E => m_label_test E _ _ _ _) => apply c_m_label_test
    | |- coded (fun E => m_label_tail E _ _ _ _ _ _ _) => apply c_m_label_tail
    | |- coded (fun E => m_label E _ _ _ _ _) => apply c_m_label
    | |- coded (fun E => m_tr46_checks E _ _ _ _ _) => apply c_m_tr46_checks
    | |- coded (fun E => m_tr46 E _ _ _ _) => apply c_m_tr46
    | |- coded (fun E => m_lookup_labels E _ _ _ _ _ _) => apply c_m_lookup_labels
    | |- coded (fun E => hand_out E _ _) => apply c_hand_out
    | |- coded (fun E => m_lookup_u8 E _ _ _ _ _) => apply c_m_lookup_u8
    | |- coded (fun E => m_lookup_ul E _ _ _ _ _ _) => apply c_m_lookup_ul
    | |- coded (fun E => m_to_ascii_8z E _ _ _ _ _) => apply c_m_to_ascii_8z
    | |- coded (fun E => m_to_ascii_lz E _ _ _ _ _ _) => apply c_m_to_ascii_lz
    | |- coded (fun E => pass_on E _ _ _) => apply c_pass_on
    | |- coded (fun E => hbind (@?m E) (@?k E)) => apply (coded_bind _ _ m k); [|intros ?]
    end.
  Lemma c_m_to_ascii_4i2 : forall junk i o flags, coded (fun E => m_to_ascii_4i2 E U junk i o flags).
  Proof. intros. unfold m_to_ascii_4i2. codes. Defined.
  Ltac op ::=
    lazymatch goal with
    | |- coded (fun E => ret _) => apply coded_ret
    | |- coded (fun E => undef) => apply coded_undef
    | |- coded (fun E => load _) => apply coded_load
    | |- coded (fun E => fill _ _) => apply coded_fill
    | |- coded (fun E => acquire E _) => apply coded_acquire
    | |- coded (fun E => free E _) => apply coded_free
    | |- coded (fun E => nomem) => apply coded_nomem
    | |- coded (fun E => try _) => apply coded_try
    | |- coded (fun E => must _) => apply coded_must
    | |- coded (fun E => touch _) => apply coded_touch
    | |- coded (fun E => cstr _) => apply coded_cstr
    | |- coded (fun E => local _) => apply coded_local
    | |- coded (fun E => no_memory_or _) => apply coded_no_memory_or
    | |- coded (fun E => m_u8_to_u32_nfc E _ _ _ _ _) => apply c_m_u8_to_u32_nfc
    | |- coded (fun E => m_label_test E _ _ _ _) => apply c_m_label_test
    | |- coded (fun E => m_label_tail E _ _ _ _ _ _ _) => apply c_m_label_tail
    | |- coded (fun E => m_label E _ _ _ _ _) => apply c_m_label
    | |- coded (fun E => m_tr46_checks E _ _ _ _ _) => apply c_m_tr46_checks
    | |- coded (fun E => m_tr46 E _ _ _ _) => apply c_m_tr46
    | |- coded (fun E => m_lookup_labels E _ _ _ _ _ _) => apply c_m_lookup_labels
    | |- coded (fun E => hand_out E _ _) => apply c_hand_out
    | |- coded (fun E => m_lookup_u8 E _ _ _ _ _) => apply c_m_lookup_u8
    | |- coded (fun E => m_lookup_ul E _ _ _ _ _ _) => apply c_m_lookup_ul
    | |- coded (fun E => m_to_ascii_8z E _ _ _ _ _) => apply c_m_to_ascii_8z
    | |- coded (fun E => m_to_ascii_lz E _ _ _ _ _ _) => apply c_m_to_ascii_lz
    | |- coded (fun E => pass_on E _ _ _) => apply c_pass_on
    | |- coded (fun E => m_to_ascii_4i2 E _ _ _ _ _) => apply c_m_to_ascii_4i2
    | |- coded (fun E => hbind (@?m E) (@?k E)) => apply (coded_bind _ _ m k); [|intros ?]
    end.
  Lemma c_m_to_ascii_4i : forall junk i o flags, coded (fun E => m_to_ascii_4i E U junk i o flags).
  Proof. intros. unfold m_to_ascii_4i. codes. Defined.
  Ltac op ::=
    lazymatch goal with
    | |- coded (fun E => ret _) => apply coded_ret
    | |- coded (fun E => undef) => apply coded_undef
    | |- coded (fun E => load _) => apply coded_load
    | |- coded (fun E => fill _ _) => apply coded_fill
    | |- coded (fun E => acquire E _) => apply coded_acquire
    | |- coded (fun E => free E _) => apply coded_free
    | |- coded (fun E => nomem) => apply coded_nomem
    | |- coded (fun E => try _) => apply coded_try
    | |- coded (fun E => must _) => apply coded_must
    | |- coded (fun E => touch _) => apply coded_touch
    | |- coded (fun E => cstr _) => apply coded_cstr
    | |- coded (fun E => local _) => apply coded_local
    | |- coded (fun E => no_memory_or _) => apply coded_no_memory_or
    | |- coded (fun E => m_u8_to_u32_nfc E _ _ _ _ _) => apply c_m_u8_to_u32_nfc
    | |- coded (fun E => m_label_test E _ _ _ _) => apply c_m_label_test
    | |- coded (fun E => m_label_tail E _ _ _ _ _ _ _) => apply c_m_label_tail
    | |- coded (fun E => m_label E _ _ _ _ _) => apply c_m_label
    | |- coded (fun E => m_tr46_checks E _ _ _ _ _) => apply c_m_tr46_checks
    | |- coded (fun E => m_tr46 E _ _ _ _) => apply c_m_tr46
    | |- coded (fun E => m_lookup_labels E _ _ _ _ _ _) => apply c_m_lookup_labels
    | |- coded (fun E => hand_out E _ _) => apply c_hand_out
    | |- coded (fun E => m_lookup_u8 E _ _ _ _ _) => apply c_m_lookup_u8
    | |- coded (fun E => m_lookup_ul E _ _ _ _ _ _) => apply c_m_lookup_ul
    | |- coded (fun E => m_to_ascii_8z E _ _ _ _ _) => apply c_m_to_ascii_8z
    | |- coded (fun E => m_to_ascii_lz E _ _ _ _ _ _) => apply c_m_to_ascii_lz
    | |- coded (fun E => pass_on E _ _ _) => apply c_pass_on
    | |- coded (fun E => m_to_ascii_4i2 E _ _ _ _ _) => apply c_m_to_ascii_4i2
    | |- coded (fun E => m_to_ascii_4i E _ _ _ _ _) => apply c_m_to_ascii_4i
    | |- coded (fun E => hbind (@?m E) (@?k E)) => apply (coded_bind _ _ m k); [|intros ?]
    end.
  Lemma c_m_to_ascii_4z : forall junk i o flags, coded (fun E => m_to_ascii_4z E U junk i o flags).
  Proof. intros. unfold m_to_ascii_4z. codes. Defined.
  Ltac op ::=
    lazymatch goal with
    | |- coded (fun E => ret _) => apply coded_ret
    | |- coded (fun E => undef) => apply coded_undef
    | |- coded (fun E => load _) => apply coded_load
    | |- coded (fun E => fill _ _) => apply coded_fill
    | |- coded (fun E => acquire E _) => apply coded_acquire
    | |- coded (fun E => free E _) => apply coded_free
    | |- coded (fun E => nomem) => apply coded_nomem
    | |- coded (fun E => try _) => apply coded_try
    | |- coded (fun E => must _) => apply coded_must
    | |- coded (fun E => touch _) => apply coded_touch
    | |- coded (fun E => cstr _) => apply coded_cstr
    | |- coded (fun E => local _) => apply coded_local
    | |- coded (fun E => no_memory_or _) => apply coded_no_memory_or
    | |- coded (fun E => m_u8_to_u32_nfc E _ _ _ _ _) => apply c_m_u8_to_u32_nfc
    | |- coded (fun E => m_label_test E _ _ _ _) => apply c_m_label_test
    | |- coded (fun E => m_label_tail E _ _ _ _ _ _ _) => apply c_m_label_tail
    | |- coded (fun E => m_label E _ _ _ _ _) => apply c_m_label
    | |- coded (fun E => m_tr46_checks E _ _ _ _ _) => apply c_m_tr46_checks
    | |- coded (fun E => m_tr46 E _ _ _ _) => apply c_m_tr46
    | |- coded (fun E => m_lookup_labels E _ _ _ _ _ _) => apply c_m_lookup_labels
    | |- coded (fun E => hand_out E _ _) => apply c_hand_out
    | |- coded (fun E => m_lookup_u8 E _ _ _ _ _) => apply c_m_lookup_u8
    | |- coded (fun E => m_lookup_ul E _ _ _ _ _ _) => apply c_m_lookup_ul
    | |- coded (fun E => m_to_ascii_8z E _ _ _ _ _) => apply c_m_to_ascii_8z
    | |- coded (fun E => m_to_ascii_lz E _ _ _ _ _ _) => apply c_m_to_ascii_lz
    | |- coded (fun E => pass_on E _ _ _) => apply c_pass_on
    | |- coded (fun E => m_to_ascii_4i2 E _ _ _ _ _) => apply c_m_to_ascii_4i2
    | |- coded (fun E => m_to_ascii_4i E _ _ _ _ _) => apply c_m_to_ascii_4i
    | |- coded (fun E => m_to_ascii_4z E _ _ _ _ _) => apply c_m_to_ascii_4z
    | |- coded (fun E => hbind (@?m E) (@?k E)) => apply (coded_bind _ _ m k); [|intros ?]
    end.
  Lemma c_m_unicode_labels : forall a labels acc, coded (fun E => m_unicode_labels E a labels acc).
  Proof. intros a labels. induction labels as [|l r IH]; intros acc; cbn [m_unicode_labels]; codes; apply IH. Defined.
  Ltac op ::=
    lazymatch goal with
    | |- coded (fun E => ret _) => apply coded_ret
    | |- coded (fun E => undef) => apply coded_undef
    | |- coded (fun E => load _) => apply coded_load
    | |- coded (fun E => fill _ _) => apply coded_fill
    | |- coded (fun E => acquire E _) => apply coded_acquire
    | |- coded (fun E => free E _) => apply coded_free
    | |- coded (fun E => nomem) => apply coded_nomem
    | |- coded (fun E => try _) => apply coded_try
    | |- coded (fun E => must _) => apply coded_must
    | |- coded (fun E => touch _) => apply coded_touch
    | |- coded (fun E => cstr _) => apply coded_cstr
    | |- coded (fun E => local _) => apply coded_local
    | |- coded (fun E => no_memory_or _) => apply coded_no_memory_or
    | |- coded (fun E => m_u8_to_u32_nfc E _ _ _ _ _) => apply c_m_u8_to_u32_nfc
    | |- coded (fun E => m_label_test E _ _ _ _) => apply c_m_label_test
    | |- coded (fun E => m_label_tail E _ _ _ _ _ _ _) => apply c_m_label_tail
    | |- coded (fun E => m_label E _ _ _ _ _) => apply c_m_label
    | |- coded (fun E => m_tr46_checks E _ _ _ _ _) => apply c_m_tr46_checks
    | |- coded (fun E => m_tr46 E _ _ _ _) => apply c_m_tr46
    | |- coded (fun E => m_lookup_labels E _ _ _ _ _ _) => apply c_m_lookup_labels
    | |- coded (fun E => hand_out E _ _) => apply c_hand_out
    | |- coded (fun E => m_lookup_u8 E _ _ _ _ _) => apply c_m_lookup_u8
    | |- coded (fun E => m_lookup_ul E _ _ _ _ _ _) => apply c_m_lookup_ul
    | |- coded (fun E => m_to_ascii_8z E _ _ _ _ _) => apply c_m_to_ascii_8z
    | |- coded (fun E => m_to_ascii_lz E _ _ _ _ _ _) => apply c_m_to_ascii_lz
    | |- coded (fun E => pass_on E _ _ _) => apply c_pass_on
    | |- coded (fun E => m_to_ascii_4i2 E _ _ _ _ _) => apply c_m_to_ascii_4i2
    | |- coded (fun E => m_to_ascii_4i E _ _ _ _ _) => apply c_m_to_ascii_4i
    | |- coded (fun E => m_to_ascii_4z E _ _ _ _ _) => apply c_m_to_ascii_4z
    | |- coded (fun E => m_unicode_labels E _ _ _) => apply c_m_unicode_labels
    | |- coded (fun E => hbind (@?m E) (@?k E)) => apply (coded_bind _ _ m k); [|intros ?]
    end.
  Lemma c_m_to_unicode_8z4z : forall i o flags, coded (fun E => m_to_unicode_8z4z E i o flags).
  Proof. intros. unfold m_to_unicode_8z4z. codes. Defined.
  Ltac op ::=
    lazymatch goal with
    | |- coded (fun E => ret _) => apply coded_ret
    | |- coded (fun E => undef) => apply coded_undef
    | |- coded (fun E => load _) => apply coded_load
    | |- coded (fun E => fill _ _) => apply coded_fill
    | |- coded (fun E => acquire E _) => apply coded_acquire
    | |- coded (fun E => free E _) => apply coded_free
    | |- coded (fun E => nomem) => apply coded_nomem
    | |- coded (fun E => try _) => apply coded_try
    | |- coded (fun E => must _) => apply coded_must
    | |- coded (fun E => touch _) => apply coded_touch
    | |- coded (fun E => cstr _) => apply coded_cstr
    | |- coded (fun E => local _) => apply coded_local
    | |- coded (fun E => no_memory_or _) => apply coded_no_memory_or
    | |- coded (fun E => m_u8_to_u32_nfc E _ _ _ _ _) => apply c_m_u8_to_u32_nfc
    | |- coded (fun E => m_label_test E _ _ _ _) => apply c_m_label_test
    | |- coded (fun E => m_label_tail E _ _ _ _ _ _ _) => apply c_m_label_tail
    | |- coded (fun E => m_label E _ _ _ _ _) => apply c_m_label
    | |- coded (fun E => m_tr46_checks E _ _ _ _ _) => apply c_m_tr46_checks
    | |- coded (fun E => m_tr46 E _ _ _ _) => apply c_m_tr46
    | |- coded (fun E => m_lookup_labels E _ _ _ _ _ _) => apply c_m_lookup_labels
    | |- coded (fun E => hand_out E _ _) => apply c_hand_out
    | |- coded (fun E => m_lookup_u8 E _ _ _ _ _) => apply c_m_lookup_u8
    | |- coded (fun E => m_lookup_ul E _ _ _ _ _ _) => apply c_m_lookup_ul
    | |- coded (fun E => m_to_ascii_8z E _ _ _ _ _) => apply c_m_to_ascii_8z
    | |- coded (fun E => m_to_ascii_lz E _ _ _ _ _ _) => apply c_m_to_ascii_lz
    | |- coded (fun E => pass_on E _ _ _) => apply c_pass_on
    | |- coded (fun E => m_to_ascii_4i2 E _ _ _ _ _) => apply c_m_to_ascii_4i2
    | |- coded (fun E => m_to_ascii_4i E _ _ _ _ _) => apply c_m_to_ascii_4i
    | |- coded (fun E => m_to_ascii_4z E _ _ _ _ _) => apply c_m_to_ascii_4z
    | |- coded (fun E => m_unicode_labels E _ _ _) => apply c_m_unicode_labels
    | |- coded (fun E => m_to_unicode_8z4z E _ _ _) => apply c_m_to_unicode_8z4z
    | |- coded (fun E => hbind (@?m E) (@?k E)) => apply (coded_bind _ _ m k); [|intros ?]
    end.
  Lemma c_m_to_unicode_4z4z : forall junk i o flags, coded (fun E => m_to_unicode_4z4z E junk i o flags).
  Proof. intros. unfold m_to_unicode_4z4z. codes. Defined.
  Ltac op ::=
    lazymatch goal with
    | |- coded (fun E => ret _) => apply coded_ret
    | |- coded (fun E => undef) => apply coded_undef
    | |- coded (fun E => load _) => apply coded_load
    | |- coded (fun E => fill _ _) => apply coded_fill
    | |- coded (fun E => acquire E _) => apply coded_acquire
    | |- coded (fun E => free E _) => apply coded_free
    | |- coded (fun E => nomem) => apply coded_nomem
    | |- coded (fun E => try _) => apply coded_try
    | |- coded (fun E => must _) => apply coded_must
    | |- coded (fun E => touch _) => apply coded_touch
    | |- coded (fun E => cstr _) => apply coded_cstr
    | |- coded (fun E => local _) => apply coded_local
    | |- coded (fun E => no_memory_or _) => apply coded_no_memory_or
    | |- coded (fun E => m_u8_to_u32_nfc E _ _ _ _ _) => apply c_m_u8_to_u32_nfc
    | |- coded (fun E => m_label_test E _ _ _ _) => apply c_m_label_test
    | |- coded (fun E => m_label_tail E _ _ _ _ _ _ _) => apply c_m_label_tail
    | |- coded (fun E => m_label E _ _ _ _ _) => apply c_m_label
    | |- coded (fun E => m_tr46_checks E _ _ _ _ _) => apply c_m_tr46_checks
    | |- coded (fun E => m_tr46 E _ _ _ _) => apply c_m_tr46
    | |- coded (fun E => m_lookup_labels E _ _ _ _ _ _) => apply c_m_lookup_labels
    | |- coded (fun E => hand_out E _ _) => apply c_hand_out
    | |- coded (fun E => m_lookup_u8 E _ _ _ _ _) => apply c_m_lookup_u8
    | |- coded (fun E => m_lookup_ul E _ _ _ _ _ _) => apply c_m_lookup_ul
    | |- coded (fun E => m_to_ascii_8z E _ _ _ _ _) => apply c_m_to_ascii_8z
    | |- coded (fun E => m_to_ascii_lz E _ _ _ _ _ _) => apply c_m_to_ascii_lz
    | |- coded (fun E => pass_on E _ _ _) => apply c_pass_on
    | |- coded (fun E => m_to_ascii_4i2 E _ _ _ _ _) => apply c_m_to_ascii_4i2
    | |- coded (fun E => m_to_ascii_4i E _ _ _ _ _) => apply c_m_to_ascii_4i
    | |- coded (fun E => m_to_ascii_4z E _ _ _ _ _) => apply c_m_to_ascii_4z
    | |- coded (fun E => m_unicode_labels E _ _ _) => apply c_m_unicode_labels
    | |- coded (fun E => m_to_unicode_8z4z E _ _ _) => apply c_m_to_unicode_8z4z
    | |- coded (fun E => m_to_unicode_4z4z E _ _ _ _) => apply c_m_to_unicode_4z4z
    | |- coded (fun E => hbind (@?m E) (@?k E)) => apply (coded_bind _ _ m k); [|intros ?]
    end.
  Lemma c_m_to_unicode_44i : forall junk i arr n flags, coded (fun E => m_to_unicode_44i E junk i arr n flags).
  Proof. intros. unfold m_to_unicode_44i. codes. Defined.
  Ltac op ::=
    lazymatch goal with
    | |- coded (fun E => ret _) => apply coded_ret
    | |- coded (fun E => undef) => apply coded_undef
    | |- coded (fun E => load _) => apply coded_load
    | |- coded (fun E => fill _ _) => apply coded_fill
    | |- coded (fun E => acquire E _) => apply coded_acquire
    | |- coded (fun E => free E _) => apply coded_free
    | |- coded (fun E => nomem) => apply coded_nomem
    | |- coded (fun E => try _) => apply coded_try
    | |- coded (fun E => must _) => apply coded_must
    | |- coded (fun E => touch _) => apply coded_touch
    | |- coded (fun E => cstr _) => apply coded_cstr
    | |- coded (fun E => local _) => apply coded_local
    | |- coded (fun E => no_memory_or _) => apply coded_no_memory_or
    | |- coded (fun E => m_u8_to_u32_nfc E _ _ _ _ _) => apply c_m_u8_to_u32_nfc
    | |- coded (fun E => m_label_test E _ _ _ _) => apply c_m_label_test
    | |- coded (fun E => m_label_tail E _ _ _ _ _ _ _) => apply c_m_label_tail
    | |- coded (fun E => m_label E _ _ _ _ _) => apply c_m_label
    | |- coded (fun E => m_tr46_checks E _ _ _ _ _) => apply c_m_tr46_checks
    | |- coded (fun E => m_tr46 E _ _ _ _) => apply c_m_tr46
    | |- coded (fun E => m_lookup_labels E _ _ _ _ _ _) => apply c_m_lookup_labels
    | |- coded (fun E => hand_out E _ _) => apply c_hand_out
    | |- coded (fun E => m_lookup_u8 E _ _ _ _ _) => apply c_m_lookup_u8
    | |- coded (fun E => m_lookup_ul E _ _ _ _ _ _) => apply c_m_lookup_ul
    | |- coded (fun E => m_to_ascii_8z E _ _ _ _ _) => apply c_m_to_ascii_8z
    | |- coded (fun E => m_to_ascii_lz E _ _ _ _ _ _) => apply c_m_to_ascii_lz
    | |- coded (fun E => pass_on E _ _ _) => apply c_pass_on
    | |- coded (fun E => m_to_ascii_4i2 E _ _ _ _ _) => apply c_m_to_ascii_4i2
    | |- coded (fun E => m_to_ascii_4i E _ _ _ _ _) => apply c_m_to_ascii_4i
    | |- coded (fun E => m_to_ascii_4z E _ _ _ _ _) => apply c_m_to_ascii_4z
    | |- coded (fun E => m_unicode_labels E _ _ _) => apply c_m_unicode_labels
    | |- coded (fun E => m_to_unicode_8z4z E _ _ _) => apply c_m_to_unicode_8z4z
    | |- coded (fun E => m_to_unicode_4z4z E _ _ _ _) => apply c_m_to_unicode_4z4z
    | |- coded (fun E => m_to_unicode_44i E _ _ _ _ _) => apply c_m_to_unicode_44i
    | |- coded (fun E => hbind (@?m E) (@?k E)) => apply (coded_bind _ _ m k); [|intros ?]
    end.
  Lemma c_m_to_unicode_8z8z : forall junk i o flags, coded (fun E => m_to_unicode_8z8z E junk i o flags).
  Proof. intros. unfold m_to_unicode_8z8z. codes. Defined.
  Ltac op ::=
    lazymatch goal with
    | |- coded (fun E => ret _) => apply coded_ret
    | |- coded (fun E => undef) => apply coded_undef
    | |- coded (fun E => load _) => apply coded_load
    | |- coded (fun E => fill _ _) => apply coded_fill
    | |- coded (fun E => acquire E _) => apply coded_acquire
    | |- coded (fun E => free E _) => apply coded_free
    | |- coded (fun E => nomem) => apply coded_nomem
    | |- coded (fun E => try _) => apply coded_try
    | |- coded (fun E => must _) => apply coded_must
    | |- coded (fun E => touch _) => apply coded_touch
    | |- coded (fun E => cstr _) => apply coded_cstr
    | |- coded (fun E => local _) => apply coded_local
    | |- coded (fun E => no_memory_or _) => apply coded_no_memory_or
    | |- coded (fun E => m_u8_to_u32_nfc E _ _ _ _ _) => apply c_m_u8_to_u32_nfc
    | |- coded (fun E => m_label_test E _ _ _ _) => apply c_m_label_test
    | |- coded (fun E => m_label_tail E _ _ _ _ _ _ _) => apply c_m_label_tail
    | |- coded (fun E => m_label E _ _ _ _ _) => apply c_m_label
    | |- coded (fun E => m_tr46_checks E _ _ _ _ _) => apply c_m_tr46_checks
    | |- coded (fun E => m_tr46 E _ _ _ _) => apply c_m_tr46
    | |- coded (fun E => m_lookup_labels E _ _ _ _ _ _) => apply c_m_lookup_labels
    | |- coded (fun E => hand_out E _ _) => apply c_hand_out
    | |- coded (fun E => m_lookup_u8 E _ _ _ _ _) => apply c_m_lookup_u8
    | |- coded (fun E => m_lookup_ul E _ _ _ _ _ _) => apply c_m_lookup_ul
    | |- coded (fun E => m_to_ascii_8z E _ _ _ _ _) => apply c_m_to_ascii_8z
    | |- coded (fun E => m_to_ascii_lz E _ _ _ _ _ _) => apply c_m_to_ascii_lz
    | |- coded (fun E => pass_on E _ _ _) => apply c_pass_on
    | |- coded (fun E => m_to_ascii_4i2 E _ _ _ _ _) => apply c_m_to_ascii_4i2
    | |- coded (fun E => m_to_ascii_4i E _ _ _ _ _) => apply c_m_to_ascii_4i
    | |- coded (fun E => m_to_ascii_4z E _ _ _ _ _) => apply c_m_to_ascii_4z
    | |- coded (fun E => m_unicode_labels E _ _ _) => apply c_m_unicode_labels
    | |- coded (fun E => m_to_unicode_8z4z E _ _ _) => apply c_m_to_unicode_8z4z
    | |- coded (fun E => m_to_unicode_4z4z E _ _ _ _) => apply c_m_to_unicode_4z4z
    | |- coded (fun E => m_to_unicode_44i E _ _ _ _ _) => apply c_m_to_unicode_44i
    | |- coded (fun E => m_to_unicode_8z8z E _ _ _ _) => apply c_m_to_unicode_8z8z
    | |- coded (fun E => hbind (@?m E) (@?k E)) => apply (coded_bind _ _ m k); [|intros ?]
    end.
  Lemma c_m_to_unicode_8zlz : forall junk i o flags, coded (fun E => m_to_unicode_8zlz E L junk i o flags).
  Proof. intros. unfold m_to_unicode_8zlz. codes. Defined.
  Ltac op ::=
    lazymatch goal with
    | |- coded (fun E => ret _) => apply coded_ret
    | |- coded (fun E => undef) => apply coded_undef
    | |- coded (fun E => load _) => apply coded_load
    | |- coded (fun E => fill _ _) => apply coded_fill
    | |- coded (fun E => acquire E _) => apply coded_acquire
    | |- coded (fun E => free E _) => apply coded_free
    | |- coded (fun E => nomem) => apply coded_nomem
    | |- coded (fun E => try _) => apply coded_try
    | |- coded (fun E => must _) => apply coded_must
    | |- coded (fun E => touch _) => apply coded_touch
    | |- coded (fun E => cstr _) => apply coded_cstr
    | |- coded (fun E => local _) => apply coded_local
    | |- coded (fun E => no_memory_or _) => apply coded_no_memory_or
    | |- coded (fun E => m_u8_to_u32_nfc E _ _ _ _ _) => apply c_m_u8_to_u32_nfc
    | |- coded (fun E => m_label_test E _ _ _ _) => apply c_m_label_test
    | |- coded (fun E => m_label_tail E _ _ _ _ _ _ _) => apply c_m_label_tail
    | |- coded (fun E => m_label E _ _ _ _ _) => apply c_m_label
    | |- coded (fun E => m_tr46_checks E _ _ _ _ _) => apply c_m_tr46_checks
    | |- coded (fun E => m_tr46 E _ _ _ _) => apply c_m_tr46
    | |- coded (fun E => m_lookup_labels E _ _ _ _ _ _) => apply c_m_lookup_labels
    | |- coded (fun E => hand_out E _ _) => apply c_hand_out
    | |- coded (fun E => m_lookup_u8 E _ _ _ _ _) => apply c_m_lookup_u8
    | |- coded (fun E => m_lookup_ul E _ _ _ _ _ _) => apply c_m_lookup_ul
    | |- coded (fun E => m_to_ascii_8z E _ _ _ _ _) => apply c_m_to_ascii_8z
    | |- coded (fun E => m_to_ascii_lz E _ _ _ _ _ _) => apply c_m_to_ascii_lz
    | |- coded (fun E => pass_on E _ _ _) => apply c_pass_on
    | |- coded (fun E => m_to_ascii_4i2 E _ _ _ _ _) => apply c_m_to_ascii_4i2
    | |- coded (fun E => m_to_ascii_4i E _ _ _ _ _) => apply c_m_to_ascii_4i
    | |- coded (fun E => m_to_ascii_4z E _ _ _ _ _) => apply c_m_to_ascii_4z
    | |- coded (fun E => m_unicode_labels E _ _ _) => apply c_m_unicode_labels
    | |- coded (fun E => m_to_unicode_8z4z E _ _ _) => apply c_m_to_unicode_8z4z
    | |- coded (fun E => m_to_unicode_4z4z E _ _ _ _) => apply c_m_to_unicode_4z4z
    | |- coded (fun E => m_to_unicode_44i E _ _ _ _ _) => apply c_m_to_unicode_44i
    | |- coded (fun E => m_to_unicode_8z8z E _ _ _ _) => apply c_m_to_unicode_8z8z
    | |- coded (fun E => m_to_unicode_8zlz E _ _ _ _ _) => apply c_m_to_unicode_8zlz
    | |- coded (fun E => hbind (@?m E) (@?k E)) => apply (coded_bind _ _ m k); [|intros ?]
    end.
  Lemma c_m_to_unicode_lzlz : forall junk i o flags, coded (fun E => m_to_unicode_lzlz E L junk i o flags).
  Proof. intros. unfold m_to_unicode_lzlz. codes. Defined.
  Ltac op ::=
    lazymatch goal with
    | |- coded (fun E => ret _) => apply coded_ret
    | |- coded (fun E => undef) => apply coded_undef
    | |- coded (fun E => load _) => apply coded_load
    | |- coded (fun E => fill _ _) => apply coded_fill
    | |- coded (fun E => acquire E _) => apply coded_acquire
    | |- coded (fun E => free E _) => apply coded_free
    | |- coded (fun E => nomem) => apply coded_nomem
    | |- coded (fun E => try _) => apply coded_try
    | |- coded (fun E => must _) => apply coded_must
    | |- coded (fun E => touch _) => apply coded_touch
    | |- coded (fun E => cstr _) => apply coded_cstr
    | |- coded (fun E => local _) => apply coded_local
    | |- coded (fun E => no_memory_or _) => apply coded_no_memory_or
    | |- coded (fun E => m_u8_to_u32_nfc E _ _ _ _ _) => apply c_m_u8_to_u32_nfc
    | |- coded (fun E => m_label_test E _ _ _ _) => apply c_m_label_test
    | |- coded (fun E => m_label_tail E _ _ _ _ _ _ _) => apply c_m_label_tail
    | |- coded (fun E => m_label E _ _ _ _ _) => apply c_m_label
    | |- coded (fun E => m_tr46_checks E _ _ _ _ _) => apply c_m_tr46_checks
    | |- coded (fun E => m_tr46 E _ _ _ _) => apply c_m_tr46
    | |- coded (fun E => m_lookup_labels E _ _ _ _ _ _) => apply c_m_lookup_labels
    | |- coded (fun E => hand_out E _ _) => apply c_hand_out
    | |- coded (fun E => m_lookup_u8 E _ _ _ _ _) => apply c_m_lookup_u8
    | |- coded (fun E => m_lookup_ul E _ _ _ _ _ _) => apply c_m_lookup_ul
    | |- coded (fun E => m_to_ascii_8z E _ _ _ _ _) => apply c_m_to_ascii_8z
    | |- coded (fun E => m_to_ascii_lz E _ _ _ _ _ _) => apply c_m_to_ascii_lz
    | |- coded (fun E => pass_on E _ _ _) => apply c_pass_on
    | |- coded (fun E => m_to_ascii_4i2 E _ _ _ _ _) => apply c_m_to_ascii_4i2
    | |- coded (fun E => m_to_ascii_4i E _ _ _ _ _) => apply c_m_to_ascii_4i
    | |- coded (fun E => m_to_ascii_4z E _ _ _ _ _) => apply c_m_to_ascii_4z
    | |- coded (fun E => m_unicode_labels E _ _ _) => apply c_m_unicode_labels
    | |- coded (fun E => m_to_unicode_8z4z E _ _ _) => apply c_m_to_unicode_8z4z
    | |- coded (fun E => m_to_unicode_4z4z E _ _ _ _) => apply c_m_to_unicode_4z4z
    | |- coded (fun E => m_to_unicode_44i E _ _ _ _ _) => apply c_m_to_unicode_44i
    | |- coded (fun E => m_to_unicode_8z8z E _ _ _ _) => apply c_m_to_unicode_8z8z
    | |- coded (fun E => m_to_unicode_8zlz E _ _ _ _ _) => apply c_m_to_unicode_8zlz
    | |- coded (fun E => m_to_unicode_lzlz E _ _ _ _ _) => apply c_m_to_unicode_lzlz
    | |- coded (fun E => hbind (@?m E) (@?k E)) => apply (coded_bind _ _ m k); [|intros ?]
    end.
  Lemma c_m_reg_ulabel : forall junk a o flags, coded (fun E => m_reg_ulabel E U junk a o flags).
  Proof. intros. unfold m_reg_ulabel. codes. Defined.
  Ltac op ::=
    lazymatch goal with
    | |- coded (fun E => ret _) => apply coded_ret
    | |- coded (fun E => undef) => apply coded_undef
    | |- coded (fun E => load _) => apply coded_load
    | |- coded (fun E => fill _ _) => apply coded_fill
    | |- coded (fun E => acquire E _) => apply coded_acquire
    | |- coded (fun E => free E _) => apply coded_free
    | |- coded (fun E => nomem) => apply coded_nomem
    | |- coded (fun E => try _) => apply coded_try
    | |- coded (fun E => must _) => apply coded_must
    | |- coded (fun E => touch _) => apply coded_touch
    | |- coded (fun E => cstr _) => apply coded_cstr
    | |- coded (fun E => local _) => apply coded_local
    | |- coded (fun E => no_memory_or _) => apply coded_no_memory_or
    | |- coded (fun E => m_u8_to_u32_nfc E _ _ _ _ _) => apply c_m_u8_to_u32_nfc
    | |- coded (fun E => m_label_test E _ _ _ _) => apply c_m_label_test
    | |- coded (fun E => m_label_tail E _ _ _ _ _ _ _) => apply c_m_label_tail
    | |- coded (fun E => m_label E _ _ _ _ _) => apply c_m_label
    | |- coded (fun E => m_tr46_checks E _ _ _ _ _) => apply c_m_tr46_checks
    | |- coded (fun E => m_tr46 E _ _ _ _) => apply c_m_tr46
    | |- coded (fun E => m_lookup_labels E _ _ _ _ _ _) => apply c_m_lookup_labels
    | |- coded (fun E => hand_out E _ _) => apply c_hand_out
    | |- coded (fun E => m_lookup_u8 E _ _ _ _ _) => apply c_m_lookup_u8
    | |- coded (fun E => m_lookup_ul E _ _ _ _ _ _) => apply c_m_lookup_ul
    | |- coded (fun E => m_to_ascii_8z E _ _ _ _ _) => apply c_m_to_ascii_8z
    | |- coded (fun E => m_to_ascii_lz E _ _ _ _ _ _) => apply c_m_to_ascii_lz
    | |- coded (fun E => pass_on E _ _ _) => apply c_pass_on
    | |- coded (fun E => m_to_ascii_4i2 E _ _ _ _ _) => apply c_m_to_ascii_4i2
    | |- coded (fun E => m_to_ascii_4i E _ _ _ _ _) => apply c_m_to_ascii_4i
    | |- coded (fun E => m_to_ascii_4z E _ _ _ _ _) => apply c_m_to_ascii_4z
    | |- coded (fun E => m_unicode_labels E _ _ _) => apply c_m_unicode_labels
    | |- coded (fun E => m_to_unicode_8z4z E _ _ _) => apply c_m_to_unicode_8z4z
    | |- coded (fun E => m_to_unicode_4z4z E _ _ _ _) => apply c_m_to_unicode_4z4z
    | |- coded (fun E => m_to_unicode_44i E _ _ _ _ _) => apply c_m_to_unicode_44i
    | |- coded (fun E => m_to_unicode_8z8z E _ _ _ _) => apply c_m_to_unicode_8z8z
    | |- coded (fun E => m_to_unicode_8zlz E _ _ _ _ _) => apply c_m_to_unicode_8zlz
    | |- coded (fun E => m_to_unicode_lzlz E _ _ _ _ _) => apply c_m_to_unicode_lzlz
    | |- coded (fun E => m_reg_ulabel E _ _ _ _ _) => apply c_m_reg_ulabel
    | |- coded (fun E => hbind (@?m E) (@?k E)) => apply (coded_bind _ _ m k); [|intros ?]
    end.
  Lemma c_m_reg_alabel : forall junk u aa o, coded (fun E => m_reg_alabel E U junk u aa o).
  Proof. intros. unfold m_reg_alabel. codes. Defined.
  Ltac op ::=
    lazymatch goal with
    | |- coded (fun E => ret _) => apply coded_ret
    | |- coded (fun E => undef) => apply coded_undef
    | |- coded (fun E => load _) => apply coded_load
    | |- coded (fun E => fill _ _) => apply coded_fill
    | |- coded (fun E => acquire E _) => apply coded_acquire
    | |- coded (fun E => free E _) => apply coded_free
    | |- coded (fun E => nomem) => apply coded_nomem
    | |- coded (fun E => try _) => apply coded_try
    | |- coded (fun E => must _) => apply coded_must
    | |- coded (fun E => touch _) => apply coded_touch
    | |- coded (fun E => cstr _) => apply coded_cstr
    | |- coded (fun E => local _) => apply coded_local
    | |- coded (fun E => no_memory_or _) => apply coded_no_memory_or
    | |- coded (fun E => m_u8_to_u32_nfc E _ _ _ _ _) => apply c_m_u8_to_u32_nfc
    | |- coded (fun E => m_label_test E _ _ _ _) => apply c_m_label_test
    | |- coded (fun E => m_label_tail E _ _ _ _ _ _ _) => apply c_m_label_tail
    | |- coded (fun E => m_label E _ _ _ _ _) => apply c_m_label
    | |- coded (fun E => m_tr46_checks E _ _ _ _ _) => apply c_m_tr46_checks
    | |- coded (fun E => m_tr46 E _ _ _ _) => apply c_m_tr46
    | |- coded (fun E => m_lookup_labels E _ _ _ _ _ _) => apply c_m_lookup_labels
    | |- coded (fun E => hand_out E _ _) => apply c_hand_out
    | |- coded (fun E => m_lookup_u8 E _ _ _ _ _) => apply c_m_lookup_u8
    | |- coded (fun E => m_lookup_ul E _ _ _ _ _ _) => apply c_m_lookup_ul
    | |- coded (fun E => m_to_ascii_8z E _ _ _ _ _) => apply c_m_to_ascii_8z
    | |- coded (fun E => m_to_ascii_lz E _ _ _ _ _ _) => apply c_m_to_ascii_lz
    | |- coded (fun E => pass_on E _ _ _) => apply c_pass_on
    | |- coded (fun E => m_to_ascii_4i2 E _ _ _ _ _) => apply c_m_to_ascii_4i2
    | |- coded (fun E => m_to_ascii_4i E _ _ _ _ _) => apply c_m_to_ascii_4i
    | |- coded (fun E => m_to_ascii_4z E _ _ _ _ _) => apply c_m_to_ascii_4z
    | |- coded (fun E => m_unicode_labels E _ _ _) => apply c_m_unicode_labels
    | |- coded (fun E => m_to_unicode_8z4z E _ _ _) => apply c_m_to_unicode_8z4z
    | |- coded (fun E => m_to_unicode_4z4z E _ _ _ _) => apply c_m_to_unicode_4z4z
    | |- coded (fun E => m_to_unicode_44i E _ _ _ _ _) => apply c_m_to_unicode_44i
    | |- coded (fun E => m_to_unicode_8z8z E _ _ _ _) => apply c_m_to_unicode_8z8z
    | |- coded (fun E => m_to_unicode_8zlz E _ _ _ _ _) => apply c_m_to_unicode_8zlz
    | |- coded (fun E => m_to_unicode_lzlz E _ _ _ _ _) => apply c_m_to_unicode_lzlz
    | |- coded (fun E => m_reg_ulabel E _ _ _ _ _) => apply c_m_reg_ulabel
    | |- coded (fun E => m_reg_alabel E _ _ _ _ _) => apply c_m_reg_alabel
    | |- coded (fun E => hbind (@?m E) (@?k E)) => apply (coded_bind _ _ m k); [|intros ?]
    end.
  Lemma c_m_register_u8 : forall junk u a o flags, coded (fun E => m_register_u8 E U junk u a o flags).
  Proof. intros. unfold m_register_u8. codes. Defined.
  Ltac op ::=
    lazymatch goal with
    | |- coded (fun E => ret _) => apply coded_ret
    | |- coded (fun E => undef) => apply coded_undef
    | |- coded (fun E => load _) => apply coded_load
    | |- coded (fun E => fill _ _) => apply coded_fill
    | |- coded (fun E => acquire E _) => apply coded_acquire
    | |- coded (fun E => free E _) => apply coded_free
    | |- coded (fun E => nomem) => apply coded_nomem
    | |- coded (fun E => try _) => apply coded_try
    | |- coded (fun E => must _) => apply coded_must
    | |- coded (fun E => touch _) => apply coded_touch
    | |- coded (fun E => cstr _) => apply coded_cstr
    | |- coded (fun E => local _) => apply coded_local
    | |- coded (fun E => no_memory_or _) => apply coded_no_memory_or
    | |- coded (fun E => m_u8_to_u32_nfc E _ _ _ _ _) => apply c_m_u8_to_u32_nfc
    | |- coded (fun E => m_label_test E _ _ _ _) => apply c_m_label_test
    | |- coded (fun E => m_label_tail E _ _ _ _ _ _ _) => apply c_m_label_tail
    | |- coded (fun E => m_label E _ _ _ _ _) => apply c_m_label
    | |- coded (fun E => m_tr46_checks E _ _ _ _ _) => apply c_m_tr46_checks
    | |- coded (fun E => m_tr46 E _ _ _ _) => apply c_m_tr46
    | |- coded (fun E => m_lookup_labels E _ _ _ _ _ _) => apply c_m_lookup_labels
    | |- coded (fun E => hand_out E _ _) => apply c_hand_out
    | |- coded (fun E => m_lookup_u8 E _ _ _ _ _) => apply c_m_lookup_u8
    | |- coded (fun E => m_lookup_ul E _ _ _ _ _ _) => apply c_m_lookup_ul
    | |- coded (fun E => m_to_ascii_8z E _ _ _ _ _) => apply c_m_to_ascii_8z
    | |- coded (fun E => m_to_ascii_lz E _ _ _ _ _ _) => apply c_m_to_ascii_lz
    | |- coded (fun E => pass_on E _ _ _) => apply c_pass_on
    | |- coded (fun E => m_to_ascii_4i2 E _ _ _ _ _) => apply c_m_to_ascii_4i2
    | |- coded (fun E => m_to_ascii_4i E _ _ _ _ _) => apply c_m_to_ascii_4i
    | |- coded (fun E => m_to_ascii_4z E _ _ _ _ _) => apply c_m_to_ascii_4z
    | |- coded (fun E => m_unicode_labels E _ _ _) => apply c_m_unicode_labels
    | |- coded (fun E => m_to_unicode_8z4z E _ _ _) => apply c_m_to_unicode_8z4z
    | |- coded (fun E => m_to_unicode_4z4z E _ _ _ _) => apply c_m_to_unicode_4z4z
    | |- coded (fun E => m_to_unicode_44i E _ _ _ _ _) => apply c_m_to_unicode_44i
    | |- coded (fun E => m_to_unicode_8z8z E _ _ _ _) => apply c_m_to_unicode_8z8z
    | |- coded (fun E => m_to_unicode_8zlz E _ _ _ _ _) => apply c_m_to_unicode_8zlz
    | |- coded (fun E => m_to_unicode_lzlz E _ _ _ _ _) => apply c_m_to_unicode_lzlz
    | |- coded (fun E => m_reg_ulabel E _ _ _ _ _) => apply c_m_reg_ulabel
    | |- coded (fun E => m_reg_alabel E _ _ _ _ _) => apply c_m_reg_alabel
    | |- coded (fun E => m_register_u8 E _ _ _ _ _ _) => apply c_m_register_u8
    | |- coded (fun E => hbind (@?m E) (@?k E)) => apply (coded_bind _ _ m k); [|intros ?]
    end.
  Lemma c_m_register_ul : forall junk u a o flags, coded (fun E => m_register_ul E U L junk u a o flags).
  Proof. intros. unfold m_register_ul. codes. Defined.
End Functions.
