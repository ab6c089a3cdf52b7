(** idn2_register_ul: the text returns what the specifications ask for. *)
From Coq Require Import String.
From Verif Require Import Base PunyBase Uenv DataTypes SpecUtf8 SpecNfc SpecLookup SpecRegRefusal Utf8 Utf8Proofs Lookup Register Api RegisterProofs RegisterTop RegRefusal RegRefusalTop Ucd UcdProofs CostLabel CostCases LookupExamples
  CLang CLogic CLeaf CRegister CRegUl SpecCPuny SpecCRegister SpecCWrap SpecCRegUl CRegisterTop CRegisterCases CWrapRun CWrapTop CWrapCases CRegUlRun.
Local Open Scope string_scope.
Local Open Scope list_scope.
Local Open Scope Z_scope.
Arguments calls : simpl never.
Arguments types : simpl never.
Arguments regul_program : simpl never.

Lemma rul_of_runs : forall reg from, forall f args mem v mem' st, f_ret f = I32 -> runs (types (regul_program reg from)) (calls (regul_program reg from) 0) (f_body f) (mkst (declare f args) mem) (Ret (I32, v) st) -> arrs st = mem' ->
  returns (fun n => run (regul_program reg from) f 0 n args mem) (v, mem').
Proof. intros reg from f args mem v mem' st RT (m & E & _) A. exists m. intros n N. unfold run. rewrite (runs_at _ _ (ru_mono reg from) _ _ _ _ E ltac:(discriminate) n N). cbn [fst snd]. rewrite RT, A. reflexivity. Qed.
Lemma rul_fun : forall reg from, forall f args mem v1 m1 v2 m2, returns (fun n => run (regul_program reg from) f 0 n args mem) (v1, m1) -> returns (fun n => run (regul_program reg from) f 0 n args mem) (v2, m2) -> v1 = v2 /\ m1 = m2.
Proof. intros reg from f args mem v1 m1 v2 m2 A B. destruct A as (i & A), B as (j & B). specialize (A (i + j)%nat ltac:(lia)). specialize (B (i + j)%nat ltac:(lia)). rewrite A in B. apply (f_equal (fun r => match r with Val x => x | _ => (0, []) end)) in B. pose proof B as E. split; [exact (f_equal fst E)|exact (f_equal snd E)]. Qed.

Definition u_fits (c : option (list Z)) : Prop := forall x, c = Some x -> c_string x /\ zlen x <= 1000000000.
Definition a_fits (a : option (list Z)) : Prop := forall x, a = Some x -> c_string x /\ zlen x < 4611686018427387904.
Section Top.
  Variable U : uenv.
  Variable reg : option (list Z) -> option (list Z) -> Z -> Z + list Z.
  Variable from : list Z -> option (list Z).
  Hypothesis K : nfc_ok U.
  Hypothesis FF : at_most_fourfold U.
  Hypothesis RI : register_is U reg.
  Lemma reg_facts : forall c a f, c <> None \/ a <> None -> u_fits c -> a_fits a -> 0 <= f < 2147483648 ->
    (forall t, reg c a f = inr t <-> registers U f c a t) /\ (forall rc, reg c a f = inl rc <-> registration_refused U f c a rc) /\ match reg c a f with inl rc => rc <> 0 | inr t => zlen t <= 63 end.
  Proof.
    intros c a f NN CF AF F. destruct RI as (inner & IN & RU & RA). destruct a as [x|].
    - destruct (AF x eq_refl) as (CX & LX). assert (CC : forall y, c = Some y -> c_string y) by (intros y E; exact (proj1 (CF y E))). specialize (RA c x f CC CX LX).
      split; [|split].
      + intros t. rewrite <- (alabel_registers U inner f c x t K FF IN CC CX LX). split; [intros <-; exact RA|]. intros T. exact (atext_fun U inner c x _ _ RA T).
      + intros rc. rewrite <- (alabel_refused U inner f c x rc K FF IN CC CX LX). split; [intros <-; exact RA|]. intros T. exact (atext_fun U inner c x _ _ RA T).
      + pose proof (proj1 RA) as PR. apply (atext_iff U inner K FF IN c x CC CX LX) in RA. pose proof (reg_a_codes U c x K CX) as RC. rewrite RA in RC. destruct (reg c (Some x) f); [exact PR|exact RC].
    - destruct c as [s|]; [|destruct NN as [Q|Q]; contradiction Q; reflexivity]. destruct (CF s eq_refl) as (CS & LS). specialize (RU s f CS LS F).
      split; [|split].
      + intros t. rewrite <- (ulabel_registers U inner f s t K FF CS ltac:(lia) F). split; [intros <-; exact RU|]. intros T. exact (utext_fun U inner f s _ _ RU T).
      + intros rc. rewrite <- (ulabel_refused U inner f s rc K FF CS LS F). split; [intros <-; exact RU|]. intros T. exact (utext_fun U inner f s _ _ RU T).
      + pose proof (proj1 RU) as PR. apply (utext_iff U inner K FF f s CS ltac:(lia) F) in RU. pose proof (reg_u_codes U s f K CS) as RC. rewrite RU in RC. destruct (reg (Some s) None f); [exact PR|exact RC].
  Qed.
  Variables (f : Z) (u a : option (list Z)).
  Hypothesis F : 0 <= f < 2147483648.
  Hypothesis NN : u <> None \/ a <> None.
  Hypothesis UZ : forall s, u = Some s -> ~ In 0 s.
  Hypothesis UF : forall s b, u = Some s -> from s = Some b -> c_string b /\ zlen b <= 1000000000.
  Hypothesis AF : a_fits a.
  Notation fl := (Z.lor f IDN2_NFC_INPUT).
  Notation res := (regul_result reg from u a f).
  Lemma res_good : match res with inl rc => rc <> 0 | inr t => zlen t <= 63 end.
  Proof.
    unfold regul_result. pose proof (flag_or f F) as FL. destruct u as [s|].
    - destruct (from s) as [b|] eqn:E; [|unfold IDN2_ICONV_FAIL; lia]. refine (proj2 (proj2 (reg_facts (Some b) a fl _ _ AF FL))); [left; discriminate|]. intros x Q. injection Q as <-. now apply (UF s b).
    - refine (proj2 (proj2 (reg_facts None a fl NN _ AF FL))). intros x Q. discriminate Q.
  Qed.
  Lemma rul_iff : forall r, regul_text reg from f u a r <-> res = r.
  Proof.
    assert (T : regul_text reg from f u a res).
    { pose proof res_good as RG. split; [destruct res; [exact RG|exact Logic.I]|]. intros has_ rest more utf8 name LU LN.
      destruct (regul_runs reg from u a f has_ rest more F UZ) with (utf8 := utf8) (name := name) as (st & u' & RR & AR); [|exact RG| |exact LN|].
      - intros s E Q. destruct (AF s E) as (C & _). apply (proj1 (Forall_forall _ _) C) in Q. lia.
      - intros s b E Q. destruct (UF s b E Q) as (C & L). split; [|split; [lia|now apply (LU s b)] ]. intros Z0. apply (proj1 (Forall_forall _ _) C) in Z0. lia.
      - exists u'. eapply rul_of_runs; [reflexivity|exact RR|exact AR]. }
    intros r. split; [|intros <-; exact T]. intros H. destruct T as (P1 & A), H as (P2 & B).
    set (v := repeat (@None Z) (S (match u with Some s => match from s with Some b => length b | None => 0 end | None => 0 end))).
    assert (LV : forall s b, u = Some s -> from s = Some b -> zlen b < zlen v) by (intros s b E Q; unfold v, zlen; rewrite repeat_length, E, Q; lia).
    destruct (A true [] [] v (repeat None 64) LV eq_refl) as (u1 & A1), (B true [] [] v (repeat None 64) LV eq_refl) as (u2 & B1). destruct (rul_fun _ _ _ _ _ _ _ _ _ A1 B1) as (C & M).
    apply (result_eq res r P1 P2 C). exact (f_equal (fun m => match m with [_; _; _; (_, (_, x))] => x | _ => [] end) M).
  Qed.
  Lemma rul_exists : exists r, regul_text reg from f u a r /\ forall r', regul_text reg from f u a r' -> r' = r.
  Proof. exists res. split; [now apply rul_iff|]. intros r' T. apply rul_iff in T. now symmetry. Qed.
  Lemma rul_registers : forall t, regul_text reg from f u a (inr t) <-> exists c, converted from u c /\ registers U fl c a t.
  Proof.
    intros t. rewrite rul_iff. unfold regul_result. pose proof (flag_or f F) as FL. destruct u as [s|].
    - destruct (from s) as [b|] eqn:E.
      + destruct (reg_facts (Some b) a fl) as (RT & _); [left; discriminate|intros x Q; injection Q as <-; now apply (UF s b)|exact AF|exact FL|]. rewrite RT. split; [intros H; exists (Some b); split; [now constructor|exact H]|].
        intros (c & C & H). inversion C as [|s' b' Q]; subst. rewrite E in Q. injection Q as <-. exact H.
      + split; [discriminate|]. intros (c & C & _). inversion C as [|s' b' Q]; subst. rewrite E in Q. discriminate Q.
    - destruct (reg_facts None a fl) as (RT & _); [exact NN|intros x Q; discriminate Q|exact AF|exact FL|]. rewrite RT. split; [intros H; exists None; split; [constructor|exact H]|]. intros (c & C & H). inversion C; subst. exact H.
  Qed.
  Lemma rul_refused : forall rc, regul_text reg from f u a (inl rc) <-> (exists s, u = Some s /\ from s = None /\ rc = IDN2_ICONV_FAIL) \/ exists c, converted from u c /\ registration_refused U fl c a rc.
  Proof.
    intros rc. rewrite rul_iff. unfold regul_result. pose proof (flag_or f F) as FL. destruct u as [s|].
    - destruct (from s) as [b|] eqn:E.
      + destruct (reg_facts (Some b) a fl) as (_ & RT & _); [left; discriminate|intros x Q; injection Q as <-; now apply (UF s b)|exact AF|exact FL|]. rewrite RT. split; [intros H; right; exists (Some b); split; [now constructor|exact H]|].
        intros [(s' & Q & X & _)|(c & C & H)]; [injection Q as <-; rewrite E in X; discriminate X|]. inversion C as [|s' b' Q]; subst. rewrite E in Q. injection Q as <-. exact H.
      + split; [intros H; left; exists s; injection H as <-; auto|]. intros [(s' & _ & _ & ->)|(c & C & _)]; [reflexivity|]. inversion C as [|s' b' Q]; subst. rewrite E in Q. discriminate Q.
    - destruct (reg_facts None a fl) as (_ & RT & _); [exact NN|intros x Q; discriminate Q|exact AF|exact FL|]. rewrite RT. split; [intros H; right; exists None; split; [constructor|exact H]|]. intros [(s & Q & _)|(c & C & H)]; [discriminate Q|]. inversion C; subst. exact H.
  Qed.
End Top.
(** There is such a [reg]. *)
Definition sum_of (m : out (list Z)) : Z + list Z := match m with Ok t => inr t | Fail rc => inl rc | _ => inl 0 end.
Definition reg_of (U : uenv) (u a : option (list Z)) (f : Z) : Z + list Z := match a with Some x => sum_of (reg_alabel U u x) | None => match u with Some s => sum_of (reg_ulabel U s f) | None => inl 0 end end.
Lemma reg_of_is : forall U, nfc_ok U -> at_most_fourfold U -> register_is U (reg_of U).
Proof.
  intros U K FF. exists (inner_reg U). pose proof (inner_text U K FF) as IN. split; [exact IN|]. split.
  - intros s f CS LS F. unfold reg_of. apply (utext_iff U (inner_reg U) K FF f s CS ltac:(lia) F). pose proof (reg_u_codes U s f K CS) as RC. destruct (reg_ulabel U s f); try contradiction; reflexivity.
  - intros u a f CU CA LA. unfold reg_of. apply (atext_iff U (inner_reg U) K FF IN u a CU CA LA). pose proof (reg_a_codes U u a K CA) as RC. destruct (reg_alabel U u a); try contradiction; reflexivity.
Qed.
Lemma have_reg : forall U, nfc_ok U -> at_most_fourfold U -> exists reg, register_is U reg.
Proof. intros U K FF. exists (reg_of U). now apply reg_of_is. Qed.
(** Cases. *)
Lemma rul_case : forall from f u a r, 0 <= f < 2147483648 -> u <> None \/ a <> None -> (forall s, u = Some s -> ~ In 0 s) -> (forall s b, u = Some s -> from s = Some b -> c_string b /\ zlen b <= 1000) -> (forall x, a = Some x -> c_string x /\ zlen x <= 1000) ->
  regul_result (reg_of ucd) from u a f = r -> regul_text (reg_of ucd) from f u a r.
Proof.
  intros from f u a r F NN UZ UF AF E. apply (rul_iff ucd (reg_of ucd) from ucd_nfc_ok ucd_fourfold (reg_of_is ucd ucd_nfc_ok ucd_fourfold) f u a F NN UZ); [| |exact E].
  - intros s b Q1 Q2. destruct (UF s b Q1 Q2). split; [assumption|lia].
  - intros x Q. destruct (AF x Q). split; [assumption|lia].
Qed.
Lemma xn_ue_c : c_string xn_ue. Proof. unfold c_string, xn_ue. in_range_list. Qed.
Ltac rul := apply rul_case; [lia|first [left; discriminate|right; discriminate]|intros s E; first [discriminate E|injection E as <-; cbn; lia]|intros s b E Q; first [discriminate E|injection E as <-; first [discriminate Q|injection Q as <-; split; [unfold c_string; in_range_list|vm_compute; discriminate] ] ]
  |intros x E; first [discriminate E|injection E as <-; split; [exact xn_ue_c|vm_compute; discriminate] ]|vm_compute; reflexivity].
Lemma case_rul : register_is ucd (reg_of ucd) /\ let P := regul_text (reg_of ucd) latin1 0 in
  P (Some [98; 252; 45; 53]) None (inr xn_ue) /\ P (Some [98; 252; 45; 53]) (Some xn_ue) (inr xn_ue) /\ P None (Some xn_ue) (inr xn_ue) /\
  regul_text (reg_of ucd) (fun _ => Some [101; 204; 129]) 0 (Some [101]) None (inr [120; 110; 45; 45; 57; 99; 97]).
Proof.
  split; [exact (reg_of_is ucd ucd_nfc_ok ucd_fourfold)|]. intros P. unfold P. split; [rul|]. split; [rul|]. split; [rul|]. rul.
Qed.
Lemma case_rul_code : let P := regul_text (reg_of ucd) latin1 0 in
  P (Some [252; 45]) None (inl IDN2_HYPHEN_STARTEND) /\ P (Some [98]) (Some xn_ue) (inl IDN2_UALABEL_MISMATCH) /\ regul_text (reg_of ucd) (fun _ => None) 0 (Some [98; 252; 45; 53]) (Some xn_ue) (inl IDN2_ICONV_FAIL).
Proof. intros P. unfold P. split; [rul|]. split; [rul|]. rul. Qed.
