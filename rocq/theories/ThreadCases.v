(** Threads: cases, and programs that are not thread safe. *)
From Coq Require Import Permutation.
From Verif Require Import Base Uenv UcdProofs CliTop Lookup Api Register SpecNfc SpecLookup SpecCli SpecHeap Heap Thread ThreadCode ThreadProofs SpecThread ThreadTop LookupExamples Ucd.

Definition here (c : code answer) (sc : bool) : thread answer := Thread c (fun _ => 7) 0 0 sc.
Definition lookup_job : job := Job (CString FLookupU8 (Some buecher) (Some None) 0) latin1_guarded (Some 3%nat).
Definition loop_job : job :=
  Job (CLoop [(FToUnicode8z4z, Some xn_buecher, 0); (FLookupU8, Some strasse, 0); (FLookupU8, Some buecher, IDN2_NO_TR46)]) latin1_guarded None.

Lemma case_jobs : started ucd [lookup_job; loop_job] [here (text (job_coded ucd lookup_job)) false; here (text (job_coded ucd loop_job)) true].
Proof.
  assert (B : forall s, c_string s -> zlen s < two64 -> bytes_arg (Some s)) by (intros s C L t e; injection e as <-; auto).
  split.
  - constructor; [|constructor; [|constructor]]; (split; [exact latin1_ok|]); cbn [asked lookup_job loop_job].
    + apply B; [exact buecher_c|vm_compute; reflexivity].
    + intros f i flags [H|[H|[H|[]]]]; injection H as <- <- <-; apply B; try exact buecher_c; try exact strasse_c; try (vm_compute; reflexivity).
      unfold c_string, xn_buecher. in_range_list.
  - constructor; [|constructor; [|constructor]]; apply text_ok.
Qed.
(** They can run; in the end there is one new block in memory. *)
Lemma case_run : exists G t1 t2 x,
  steps false ([(7, [1])], [here (text (job_coded ucd lookup_job)) false; here (text (job_coded ucd loop_job)) true]) (G, [t1; t2]) /\
  done t1 /\ done t2 /\ Permutation G [(7, [1]); (x, xn_buecher)].
Proof.
  assert (ND : NoDup (map fst [(7, [1])])) by (constructor; [intros []|constructor]).
  destruct (can_end ucd ucd_nfc_ok false _ [(7, [1])] _ _ case_jobs ND (steps_none _ _)) as ((G & ts) & R & D). cbn [snd] in D.
  destruct (at_the_end ucd ucd_nfc_ok false _ _ _ _ _ case_jobs ND R D) as (ms & L & PM & X).
  destruct (shares ucd ucd_nfc_ok false _ _ _ _ _ case_jobs ND R) as (_ & _ & L2 & _).
  destruct ts as [|t1 [|t2 [|t3 ts]]]; try discriminate L2. destruct ms as [|m1 [|m2 [|m3 ms]]]; try discriminate L.
  inversion D as [|? ? D1 D']; subst. inversion D' as [|? ? D2 _]; subst.
  destruct (X 0%nat lookup_job t1 m1 eq_refl eq_refl eq_refl) as (_ & X1). destruct (X 1%nat loop_job t2 m2 eq_refl eq_refl eq_refl) as (_ & X2).
  specialize (X1 eq_refl). specialize (X2 eq_refl). unfold answers in X1, X2. cbn [asked lookup_job loop_job] in X1, X2.
  destruct D1 as (a1 & F1), D2 as (a2 & F2). unfold finished in F1, F2.
  assert (SC : scarce t1 = false).
  { destruct (as_alone false [(7, [1])] _ _ _ (jobs_secure ucd ucd_nfc_ok false _ _ case_jobs) ND R) as (ms' & L3 & _ & _ & _ & Y).
    destruct ms' as [|m1' ms']; [discriminate L3|]. exact (proj1 (Y 0%nat _ _ _ eq_refl eq_refl eq_refl)). }
  rewrite F1, SC in X1. rewrite F2 in X2. destruct a1 as [rc o'| | |]; try contradiction. destruct a2 as [| | |rs]; try contradiction. destruct X2 as (-> & _).
  exists G, t1, t2.
  assert (V : string_result ucd latin1_guarded FLookupU8 (Some buecher) (Some None) 0 = Ok (IDN2_OK, Some (Some xn_buecher))) by (vm_compute; reflexivity).
  cbn [charset lookup_job] in X1. remember (Some (None (A := nat))) as oo eqn:Eo in X1. destruct X1 as [n z _ P|rc o' P _ Q|P].
  - rewrite V in P. injection P as <-. exists (place t1 n). split; [exact R|]. split; [exists (AString IDN2_OK (Some (Some n))); exact F1|].
    split; [exists (AMany rs); exact F2|]. exact PM.
  - subst oo. destruct (Q ltac:(discriminate) xn_buecher V).
  - discriminate P.
Qed.

(** A function with a static buffer: both threads write to it before either
    reads it, and one of them gets what the other wrote. *)
Definition static (s : list Z) : code (list Z) := Write 0 s (Read 0 (fun r => Done r)).
Definition caller (c : code (list Z)) : thread (list Z) := Thread c (fun _ => 7) 0 0 false.
Lemma case_static : touches (caller (static [1])) 7 /\ touches (caller (static [2])) 7 /\
  (exists G t2, steps false ([(7, [])], [caller (static [1]); caller (static [2])]) (G, [caller (Done [2]); t2])) /\
  forall E, alone E (static [1]) (Heap [(0%nat, [])] 1 0 0) = Ok ([1], Heap [(0%nat, [1])] 1 0 0).
Proof.
  split; [reflexivity|]. split; [reflexivity|]. split; [|reflexivity].
  exists [(7, [2])], (caller (Read 0 (fun r => Done r))).
  eapply steps_more; [eapply steps_more; [eapply steps_more; [constructor|]|]|].
  - apply (ss false [(7, [])] [(7, [1])] [] (caller (static [1])) (caller (Read 0 (fun r => Done r))) [caller (static [2])]).
    exact (ts_write false [(7, [])] 0 [1] (Read 0 (fun r => Done r)) (fun _ => 7) 0 0 false [] eq_refl).
  - apply (ss false [(7, [1])] [(7, [2])] [caller (Read 0 (fun r => Done r))] (caller (static [2])) (caller (Read 0 (fun r => Done r))) []).
    exact (ts_write false [(7, [1])] 0 [2] (Read 0 (fun r => Done r)) (fun _ => 7) 0 0 false [1] eq_refl).
  - apply (ss false [(7, [2])] [(7, [2])] [] (caller (Read 0 (fun r => Done r))) (caller (Done [2])) [caller (Read 0 (fun r => Done r))]).
    exact (ts_read false [(7, [2])] 0 (fun r => Done r) (fun _ => 7) 0 0 false [2] eq_refl).
Qed.
(** A function that reads a block after freeing it: another thread may have the
    memory by then. *)
Definition stale : code (list Z) := Malloc (Some [1]) (fun _ => Free (Some 0%nat) (Read 0 (fun r => Done r))).
Definition other : code (list Z) := Malloc (Some [2]) (fun _ => Done []).
Lemma case_stale : (exists G t1 t2, steps false ([], [caller stale; caller other]) (G, [t1; t2]) /\ finished t1 [2]) /\
  forall E, plentiful E -> alone E stale (Heap [] 0 0 0) = Undef.
Proof.
  split.
  - set (pl := fun n => if Nat.eqb n 0 then 7 else (fun _ : nat => 7) n).
    exists [(7, [2])], (Thread (Done [2]) pl 1 0 false), (Thread (Done []) pl 1 0 false). split; [|reflexivity].
    eapply steps_more; [eapply steps_more; [eapply steps_more; [eapply steps_more; [constructor|]|]|]|].
    + apply (ss false [] [(7, [1])] [] (caller stale) (Thread (Free (Some 0%nat) (Read 0 (fun r => Done r))) pl 1 0 false) [caller other]).
      exact (ts_malloc false [] [1] (fun _ => Free (Some 0%nat) (Read 0 (fun r => Done r))) (fun _ => 7) 0 0 false 7 eq_refl).
    + apply (ss false [(7, [1])] [] [] (Thread (Free (Some 0%nat) (Read 0 (fun r => Done r))) pl 1 0 false) (Thread (Read 0 (fun r => Done r)) pl 1 0 false) [caller other]).
      exact (ts_free false [(7, [1])] 0 (Read 0 (fun r => Done r)) pl 1 0 false 0 [1] eq_refl (or_introl eq_refl)).
    + apply (ss false [] [(7, [2])] [Thread (Read 0 (fun r => Done r)) pl 1 0 false] (caller other) (Thread (Done []) pl 1 0 false) []).
      exact (ts_malloc false [] [2] (fun _ => Done []) (fun _ => 7) 0 0 false 7 eq_refl).
    + apply (ss false [(7, [2])] [(7, [2])] [] (Thread (Read 0 (fun r => Done r)) pl 1 0 false) (Thread (Done [2]) pl 1 0 false) [Thread (Done []) pl 1 0 false]).
      exact (ts_read false [(7, [2])] 0 (fun r => Done r) pl 1 0 false [2] eq_refl).
  - intros E P. cbn [stale alone]. unfold hbind, acquire. rewrite P. cbn. unfold free. cbn. reflexivity.
Qed.
