(** register.c: the text returns what the model returns, and what IDNA asks for. *)
From Coq Require Import String.
From Verif Require Import Base PunyBase Uenv DataTypes SpecUtf8 SpecNfc SpecLookup SpecRegister SpecRegRefusal Lookup Api Register RegisterProofs RegisterTop RegRefusalTop CostLabel
  CLang CLogic CLeaf CLookup CRegister SpecCPuny SpecCRegister CRegisterRun CRegisterA.
Local Open Scope string_scope.
Local Open Scope list_scope.
Local Open Scope Z_scope.
Arguments calls : simpl never.
Arguments types : simpl never.
Arguments register_program : simpl never.

Section Top.
  Variable U : uenv.
  Variable reg : list Z -> Z + list Z.
  Notation P := (register_program U reg).
  Lemma r_of_runs : forall f args mem v mem' st, f_ret f = I32 -> runs (types P) (calls P 0) (f_body f) (mkst (declare f args) mem) (Ret (I32, v) st) -> arrs st = mem' ->
    returns (fun n => run P f 0 n args mem) (v, mem').
  Proof. intros f args mem v mem' st RT (m & E & _) A. exists m. intros n N. unfold run. rewrite (runs_at _ _ (rg_mono U reg) _ _ _ _ E ltac:(discriminate) n N). cbn [fst snd]. rewrite RT, A. reflexivity. Qed.
  Lemma r_fun : forall f args mem v1 m1 v2 m2, returns (fun n => run P f 0 n args mem) (v1, m1) -> returns (fun n => run P f 0 n args mem) (v2, m2) -> v1 = v2 /\ m1 = m2.
  Proof. intros f args mem v1 m1 v2 m2 A B. destruct A as (i & A), B as (j & B). specialize (A (i + j)%nat ltac:(lia)). specialize (B (i + j)%nat ltac:(lia)). rewrite A in B. apply (f_equal (fun r => match r with Val x => x | _ => (0, []) end)) in B. pose proof B as E. split; [exact (f_equal fst E)|exact (f_equal snd E)]. Qed.
  Hypothesis K : nfc_ok U.

  (** The same string, if the same array. *)
  Fixpoint somes (l : list (option Z)) : list Z := match l with Some x :: r => x :: somes r | _ => [] end.
  Lemma somes_with : forall t n, somes (with_string t (repeat None n)) = t ++ [0].
  Proof.
    intros t n. unfold with_string. assert (E : exists m, skipn (S (length t)) (repeat (@None Z) n) = repeat None m).
    { generalize (S (length t)). intros k. revert n. induction k as [|k IH]; intros n; [exists n; reflexivity|]. destruct n; [exists O; reflexivity|]. cbn [repeat skipn]. apply IH. }
    destruct E as (m & ->). generalize (t ++ [0]). intros l. induction l as [|c l IH]; [destruct m; reflexivity|]. cbn. rewrite IH. reflexivity.
  Qed.
  Lemma result_eq : forall r1 r2, proper r1 -> proper r2 -> code_of r1 = code_of r2 -> inserted true r1 (repeat None 64) = inserted true r2 (repeat None 64) -> r1 = r2.
  Proof.
    intros [e1|t1] [e2|t2] P1 P2 C E; cbn [proper code_of inserted] in *; [congruence|contradiction|symmetry in C; contradiction|].
    apply (f_equal somes) in E. rewrite !somes_with in E. f_equal. apply app_inj_tail in E. apply E.
  Qed.
  Lemma utext_fun : forall f s r1 r2, ulabel_text U reg f s r1 -> ulabel_text U reg f s r2 -> r1 = r2.
  Proof.
    intros f s r1 r2 (P1 & A) (P2 & B). set (u := repeat (@None Z) (4 * length s)). assert (LU : 4 * zlen s <= zlen u) by (unfold u, zlen; rewrite repeat_length; lia).
    destruct (A true u (repeat None 64) (repeat None 64) LU eq_refl eq_refl) as (u1 & t1 & A1), (B true u (repeat None 64) (repeat None 64) LU eq_refl eq_refl) as (u2 & t2 & B1).
    destruct (r_fun _ _ _ _ _ _ _ A1 B1) as (C & M). apply (result_eq r1 r2 P1 P2 C). exact (f_equal (fun m => match m with [_; _; _; (_, (_, a))] => a | _ => [] end) M).
  Qed.
  Lemma atext_fun : forall u a r1 r2, alabel_text U reg u a r1 -> alabel_text U reg u a r2 -> r1 = r2.
  Proof.
    intros u a r1 r2 (P1 & A) (P2 & B). assert (LU : zlen (repeat (@None Z) (4 * 255)) = 1020) by reflexivity. assert (L8 : zlen (repeat (@None Z) 256) = 256) by reflexivity.
    destruct (A true _ _ (repeat None 64) (repeat None 64) LU L8 eq_refl eq_refl) as (u1 & v1 & t1 & A1), (B true _ _ (repeat None 64) (repeat None 64) LU L8 eq_refl eq_refl) as (u2 & v2 & t2 & B1).
    destruct (r_fun _ _ _ _ _ _ _ A1 B1) as (C & M). apply (result_eq r1 r2 P1 P2 C). exact (f_equal (fun m => match m with [_; _; _; _; _; (_, (_, a))] => a | _ => [] end) M).
  Qed.

  Hypothesis FF : at_most_fourfold U.
  Lemma utext_model : forall f s, c_string s -> 4 * zlen s < 4611686018427387904 -> 0 <= f < 2147483648 ->
    match reg_ulabel U s f with Ok t => ulabel_text U reg f s (inr t) | Fail rc => ulabel_text U reg f s (inl rc) | _ => False end.
  Proof.
    intros f s CS LS F. pose proof (reg_u_codes U s f K CS) as SF. pose proof (reg_u_nz U s f) as NZ.
    pose proof (fun has_ => ureg_runs U reg s f has_ FF CS LS F) as RR.
    destruct (reg_ulabel U s f) as [t|rc| |]; try contradiction.
    - split; [exact Logic.I|]. intros has_ u32 tmp name L1 L2 L3. destruct (RR has_ u32 tmp name L1 L2 L3) as (st & u' & t' & G & M). exists u', t'. eapply r_of_runs; [reflexivity|exact G|exact M].
    - split; [apply NZ; auto|]. intros has_ u32 tmp name L1 L2 L3. destruct (RR has_ u32 tmp name L1 L2 L3) as (st & u' & t' & G & M). exists u', t'. eapply r_of_runs; [reflexivity|exact G|exact M].
  Qed.
  Lemma utext_exists : forall f s, c_string s -> 4 * zlen s < 4611686018427387904 -> 0 <= f < 2147483648 -> exists r, ulabel_text U reg f s r /\ forall r', ulabel_text U reg f s r' -> r' = r.
  Proof.
    intros f s CS LS F. pose proof (utext_model f s CS LS F) as T. destruct (reg_ulabel U s f) as [d|rc| |]; try contradiction; (eexists; split; [exact T|]; intros r' H; exact (utext_fun _ _ _ _ H T)).
  Qed.
  Lemma utext_iff : forall f s, c_string s -> 4 * zlen s < 4611686018427387904 -> 0 <= f < 2147483648 -> forall r, ulabel_text U reg f s r <-> reg_ulabel U s f = (match r with inr t => Ok t | inl rc => Fail rc end).
  Proof.
    intros f s CS LS F r. pose proof (utext_model f s CS LS F) as T. split.
    - intros H. destruct (reg_ulabel U s f) as [d|rc| |]; try contradiction; rewrite <- (utext_fun _ _ _ _ T H); reflexivity.
    - intros E. rewrite E in T. destruct r; exact T.
  Qed.
  (** [reg] is what this text does. *)
  Hypothesis HR : forall x, c_string x -> zlen x <= 255 -> ulabel_text U reg 0 x (reg x).
  Lemma reg_model : forall x, c_string x -> zlen x <= 236 -> match reg_ulabel U x 0 with Ok t => reg x = inr t | Fail e => reg x = inl e | _ => True end.
  Proof. intros x CX LX. pose proof (HR x CX ltac:(lia)) as H. rewrite (utext_iff 0 x CX ltac:(lia) ltac:(lia)) in H. rewrite H. destruct (reg x); reflexivity. Qed.
  Lemma atext_model : forall u a, (forall x, u = Some x -> c_string x) -> c_string a -> zlen a < 4611686018427387904 ->
    match reg_alabel U u a with Ok t => alabel_text U reg u a (inr t) | Fail rc => alabel_text U reg u a (inl rc) | _ => False end.
  Proof.
    intros u a CU CA LA. pose proof (reg_a_codes U u a K CA) as SF. pose proof (reg_a_nz U u a) as NZ. assert (CU' : match u with Some x => c_string x | None => True end) by (destruct u; auto).
    pose proof (fun has_ => areg_runs U reg u a has_ K CU' CA LA reg_model) as RR.
    destruct (reg_alabel U u a) as [t|rc| |]; try contradiction.
    - split; [exact Logic.I|]. intros has_ u32 u8 tmp name L1 L2 L3 L4. destruct (RR has_ u32 u8 tmp name L1 L2 L3 L4) as (st & u' & v' & t' & G & M). exists u', v', t'. eapply r_of_runs; [reflexivity|exact G|exact M].
    - split; [apply NZ; auto|]. intros has_ u32 u8 tmp name L1 L2 L3 L4. destruct (RR has_ u32 u8 tmp name L1 L2 L3 L4) as (st & u' & v' & t' & G & M). exists u', v', t'. eapply r_of_runs; [reflexivity|exact G|exact M].
  Qed.
  Lemma atext_exists : forall u a, (forall x, u = Some x -> c_string x) -> c_string a -> zlen a < 4611686018427387904 -> exists r, alabel_text U reg u a r /\ forall r', alabel_text U reg u a r' -> r' = r.
  Proof.
    intros u a CU CA LA. pose proof (atext_model u a CU CA LA) as T. destruct (reg_alabel U u a) as [d|rc| |]; try contradiction; (eexists; split; [exact T|]; intros r' H; exact (atext_fun _ _ _ _ H T)).
  Qed.
  Lemma atext_iff : forall u a, (forall x, u = Some x -> c_string x) -> c_string a -> zlen a < 4611686018427387904 -> forall r, alabel_text U reg u a r <-> reg_alabel U u a = (match r with inr t => Ok t | inl rc => Fail rc end).
  Proof.
    intros u a CU CA LA r. pose proof (atext_model u a CU CA LA) as T. split.
    - intros H. destruct (reg_alabel U u a) as [d|rc| |]; try contradiction; rewrite <- (atext_fun _ _ _ _ T H); reflexivity.
    - intros E. rewrite E in T. destruct r; exact T.
  Qed.
End Top.

Lemma fail_deliver : forall (m : out (list Z)) o rc, (forall e, m = Fail e -> e <> IDN2_OK) -> ((rc <> IDN2_OK /\ deliver o m = Ok (rc, o)) <-> m = Fail rc).
Proof.
  intros m o rc NZ. split.
  - intros (N & H). apply ApiProofs.deliver_ok in H. destruct H as [(r & _ & E & _)|(G & _)]; [congruence|exact G].
  - intros ->. split; [now apply NZ|reflexivity].
Qed.
Lemma ulabel_registers : forall U reg f s t, nfc_ok U -> at_most_fourfold U -> c_string s -> 4 * zlen s < 4611686018427387904 -> 0 <= f < 2147483648 -> (ulabel_text U reg f s (inr t) <-> registers U f (Some s) None t).
Proof.
  intros U reg f s t K FF CS LS F. rewrite (utext_iff U reg K FF f s CS LS F).
  rewrite <- (registration_exact U f (Some s) None K ltac:(intros x [= <-]; exact CS) ltac:(discriminate) None t). symmetry. apply (RegisterTop.deliver_ok None). intros rc. now apply reg_u_nz.
Qed.
Lemma ulabel_refused : forall U reg f s rc, nfc_ok U -> at_most_fourfold U -> c_string s -> zlen s <= 1000000000 -> 0 <= f < 2147483648 -> (ulabel_text U reg f s (inl rc) <-> registration_refused U f (Some s) None rc).
Proof.
  intros U reg f s rc K FF CS LS F. rewrite (utext_iff U reg K FF f s CS ltac:(lia) F).
  rewrite <- (registration_refused_exact U f (Some s) None K ltac:(intros x [= <-]; exact CS) ltac:(discriminate) ltac:(intros x [= <-] _; exact LS) None rc). symmetry. apply (fail_deliver _ None). intros e. now apply reg_u_nz.
Qed.
Lemma alabel_registers : forall U reg f u a t, nfc_ok U -> at_most_fourfold U -> (forall x, c_string x -> zlen x <= 255 -> ulabel_text U reg 0 x (reg x)) -> (forall x, u = Some x -> c_string x) -> c_string a -> zlen a < 4611686018427387904 ->
  (alabel_text U reg u a (inr t) <-> registers U f u (Some a) t).
Proof.
  intros U reg f u a t K FF HR CU CA LA. rewrite (atext_iff U reg K FF HR u a CU CA LA).
  rewrite <- (registration_exact U f u (Some a) K CU ltac:(intros x [= <-]; exact CA) None t). symmetry. apply (RegisterTop.deliver_ok None). intros rc. now apply reg_a_nz.
Qed.
Lemma alabel_refused : forall U reg f u a rc, nfc_ok U -> at_most_fourfold U -> (forall x, c_string x -> zlen x <= 255 -> ulabel_text U reg 0 x (reg x)) -> (forall x, u = Some x -> c_string x) -> c_string a -> zlen a < 4611686018427387904 ->
  (alabel_text U reg u a (inl rc) <-> registration_refused U f u (Some a) rc).
Proof.
  intros U reg f u a rc K FF HR CU CA LA. rewrite (atext_iff U reg K FF HR u a CU CA LA).
  rewrite <- (registration_refused_exact U f u (Some a) K CU ltac:(intros x [= <-]; exact CA) ltac:(discriminate) None rc). symmetry. apply (fail_deliver _ None). intros e. now apply reg_a_nz.
Qed.
(** There is such a [reg]. *)
Definition inner_reg (U : uenv) (x : list Z) : Z + list Z := match reg_ulabel U x 0 with Ok t => inr t | Fail rc => inl rc | _ => inl 0 end.
Lemma inner_text : forall U, nfc_ok U -> at_most_fourfold U -> forall x, c_string x -> zlen x <= 255 -> ulabel_text U (inner_reg U) 0 x (inner_reg U x).
Proof.
  intros U K FF x CX LX. pose proof (utext_model U (inner_reg U) K FF 0 x CX ltac:(lia) ltac:(lia)) as T. unfold inner_reg at 2. destruct (reg_ulabel U x 0); try contradiction; exact T.
Qed.
