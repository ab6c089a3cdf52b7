(** Proofs about messages and names of return codes. *)
From Coq Require Import String.
From Verif Require Import Base Uenv SpecNfc SpecUtf8 SpecLookup SpecUnicode SpecRegister Lookup Api Register Error SpecError LookupCodes LookupTop ApiProofs RegisterTop.
Local Open Scope list_scope.

Lemma defined_dec : forall rc, {defined rc} + {~ defined rc}.
Proof. intros rc. apply in_dec, Z.eq_dec. Qed.

Lemma name_undefined : forall rc, ~ defined rc -> strerror_name rc = "IDN2_UNKNOWN"%string.
Proof.
  intros rc H. unfold strerror_name.
  repeat match goal with |- (if rc =? ?c then _ else _) = _ =>
    destruct (Z.eqb_spec rc c) as [-> | _]; [ exfalso; apply H; unfold defined; cbn; tauto |] end.
  reflexivity.
Qed.

Lemma message_undefined : forall rc, ~ defined rc -> strerror rc = "Unknown error"%string.
Proof.
  intros rc H. unfold strerror.
  repeat match goal with |- (if rc =? ?c then _ else _) = _ =>
    destruct (Z.eqb_spec rc c) as [-> | _]; [ exfalso; apply H; unfold defined; cbn; tauto |] end.
  reflexivity.
Qed.

Definition name_row (p : Z * string) : bool := (fst p =? IDN2_NO_CODESET) || String.eqb (strerror_name (fst p)) (snd p).

Lemma name_defined : forall rc n, In (rc, n) header -> rc <> IDN2_NO_CODESET -> strerror_name rc = n.
Proof.
  assert (A : forallb name_row header = true) by (vm_compute; reflexivity).
  intros rc n I N. rewrite forallb_forall in A. specialize (A _ I). unfold name_row in A. cbn [fst snd] in A.
  apply orb_prop in A. destruct A as [A | A]; [ apply Z.eqb_eq in A; contradiction | now apply String.eqb_eq ].
Qed.

Lemma names : forall rc, rc <> IDN2_NO_CODESET ->
  (exists n, In (rc, n) header /\ strerror_name rc = n) \/ (~ defined rc /\ strerror_name rc = "IDN2_UNKNOWN"%string).
Proof.
  intros rc N. destruct (defined_dec rc) as [D | D].
  - left. unfold defined in D. apply in_map_iff in D. destruct D as [[c n] [E I]]. cbn in E. subst c.
    exists n. split; [ exact I | exact (name_defined _ _ I N) ].
  - right. split; [ exact D | exact (name_undefined _ D) ].
Qed.

Lemma names_wrong : exists rc n, In (rc, n) header /\ strerror_name rc <> n /\ ~ (exists c, In (c, strerror_name rc) header).
Proof.
  exists IDN2_NO_CODESET, "IDN2_NO_CODESET"%string. split; [ vm_compute; tauto |]. split; [ vm_compute; discriminate |].
  intros [c I]. revert I. vm_compute. intros I.
  repeat (destruct I as [I | I]; [ discriminate I |]). exact I.
Qed.

Definition codes : list Z := map fst header.

Definition distinct_row (a : Z) : bool :=
  forallb (fun b => (a =? b) || negb (String.eqb (strerror_name a) (strerror_name b))) codes.

Lemma names_injective : forall a b, defined a -> strerror_name a = strerror_name b -> a = b.
Proof.
  assert (A : forallb distinct_row codes = true) by (vm_compute; reflexivity).
  assert (N : forallb (fun a => negb (String.eqb (strerror_name a) "IDN2_UNKNOWN")) codes = true) by (vm_compute; reflexivity).
  rewrite forallb_forall in A, N. intros a b Da E. destruct (defined_dec b) as [Db | Db].
  - specialize (A _ Da). unfold distinct_row in A. rewrite forallb_forall in A. specialize (A _ Db).
    rewrite E, String.eqb_refl in A. cbn in A. rewrite orb_false_r in A. now apply Z.eqb_eq.
  - specialize (N _ Da). cbv beta in N. rewrite E, (name_undefined _ Db) in N. discriminate N.
Qed.

Definition topic_row (p : Z * string) : bool :=
  match index 0 (snd p) (strerror (fst p)) with Some _ => true | None => false end.

Lemma topics_mentioned : forall rc w, In (rc, w) topics -> mentions (strerror rc) w.
Proof.
  assert (A : forallb topic_row topics = true) by (vm_compute; reflexivity).
  intros rc w I. rewrite forallb_forall in A. specialize (A _ I). unfold topic_row in A. cbn [fst snd] in A.
  destruct (index 0 w (strerror rc)) as [k |] eqn:E; [| discriminate A ].
  exists k. exact (index_correct1 _ _ _ _ E).
Qed.

Lemma topics_cover : forall rc, defined rc -> rc <> IDN2_INVALID_FLAGS -> exists w, In (rc, w) topics.
Proof.
  assert (A : forallb (fun c => (c =? IDN2_INVALID_FLAGS) || existsb (fun p => c =? fst p) topics) codes = true) by (vm_compute; reflexivity).
  intros rc D N. rewrite forallb_forall in A. specialize (A _ D). cbv beta in A.
  apply orb_prop in A. destruct A as [A | A]; [ apply Z.eqb_eq in A; contradiction |].
  apply existsb_exists in A. destruct A as [[c w] [I E]]. apply Z.eqb_eq in E. cbn in E. subst c. exists w. exact I.
Qed.

Definition mdistinct_row (a : Z) : bool :=
  forallb (fun b => (a =? b) || negb (String.eqb (strerror a) (strerror b))) codes.

Lemma messages_injective : forall a b, defined a -> a <> IDN2_INVALID_FLAGS -> strerror a = strerror b -> a = b.
Proof.
  assert (A : forallb mdistinct_row codes = true) by (vm_compute; reflexivity).
  assert (N : forallb (fun a => (a =? IDN2_INVALID_FLAGS) || negb (String.eqb (strerror a) "Unknown error")) codes = true) by (vm_compute; reflexivity).
  rewrite forallb_forall in A, N. intros a b Da Na E. destruct (defined_dec b) as [Db | Db].
  - specialize (A _ Da). unfold mdistinct_row in A. rewrite forallb_forall in A. specialize (A _ Db).
    rewrite E, String.eqb_refl in A. cbn in A. rewrite orb_false_r in A. now apply Z.eqb_eq.
  - specialize (N _ Da). cbv beta in N. rewrite E, (message_undefined _ Db) in N. cbn in N. rewrite orb_false_r in N.
    apply Z.eqb_eq in N. contradiction.
Qed.

Lemma messages : 
  (forall rc, defined rc -> rc <> IDN2_INVALID_FLAGS ->
     strerror rc <> "Unknown error"%string /\ forall rc', strerror rc' = strerror rc -> rc' = rc) /\
  (forall rc, ~ defined rc -> strerror rc = "Unknown error"%string).
Proof.
  split.
  - intros rc D N. split.
    + intros E. rewrite <- (message_undefined 1) in E by (unfold defined; cbn; intuition discriminate).
      pose proof (messages_injective _ _ D N E). subst rc. unfold defined in D. cbn in D. intuition discriminate.
    + intros rc' E. symmetry. apply messages_injective; [ exact D | exact N | now symmetry ].
  - exact message_undefined.
Qed.

Lemma messages_missing : exists rc, defined rc /\ strerror rc = "Unknown error"%string.
Proof. exists IDN2_INVALID_FLAGS. split; [ vm_compute; tauto | reflexivity ]. Qed.

(** Whatever the conversion functions return, unless the flags are bad, is
    explained by idn2_strerror. *)
Definition told_row (rc : Z) : bool := existsb (fun p => rc =? fst p) topics.

Lemma told : forall l rc, forallb told_row l = true -> In rc l -> exists w, In (rc, w) topics /\ mentions (strerror rc) w.
Proof.
  intros l rc A I. rewrite forallb_forall in A. specialize (A _ I). unfold told_row in A.
  apply existsb_exists in A. destruct A as [[c w] [J E]]. apply Z.eqb_eq in E. cbn in E. subst c.
  exists w. split; [ exact J | exact (topics_mentioned _ _ J) ].
Qed.

Lemma lookup_explained : forall U src f rc, nfc_ok U -> c_string src -> zlen src < two64 ->
  lookup_u8 U src f = Fail rc -> ~ bad_flags f -> exists w, In (rc, w) topics /\ mentions (strerror rc) w.
Proof.
  intros U src f rc NF CS L H B. destruct (lookup_codes U src f rc NF CS L H) as [[X _] | [_ I]]; [ contradiction |].
  apply (told lookup_errors); [ vm_compute; reflexivity | exact I ].
Qed.
Lemma unicode_explained : forall rc, In rc unicode_errors -> exists w, In (rc, w) topics /\ mentions (strerror rc) w.
Proof. intros rc. apply told. vm_compute. reflexivity. Qed.
Lemma register_explained : forall rc, In rc register_errors -> exists w, In (rc, w) topics /\ mentions (strerror rc) w.
Proof. intros rc. apply told. vm_compute. reflexivity. Qed.
