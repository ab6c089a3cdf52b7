(** C80: calls by several threads at once. *)
From Coq Require Import Permutation.
From Verif Require Import Base Uenv Api SpecNfc Heap Thread ThreadCode SpecThread ThreadProofs ThreadTop ThreadCases LookupExamples Ucd.

(** Every function is a sequence of memory operations. *)
Theorem C80_code : forall U j, exists c, is_code c (do_job U j).
Proof. exact codes_exist. Qed.
Print Assumptions C80_code.

(** Whatever the schedule and the allocator do: no thread is ever about to do
    something undefined; *)
Theorem C80_defined : forall U spoil js G0 ts0 G ts t, nfc_ok U -> started U js ts0 -> NoDup (map fst G0) -> steps spoil (G0, ts0) (G, ts) ->
  In t ts -> done t \/ exists G' t', tstep false G t G' t'.
Proof. exact (fun U spoil js G0 ts0 G ts t K ST ND R => never_stuck U K spoil js G0 ts0 G ts ST ND R t). Qed.
Print Assumptions C80_defined.
(** no two threads are about to use the same block, *)
Theorem C80_no_race : forall U spoil js G0 ts0 G ts1 t ts2 t' ts3 x, nfc_ok U -> started U js ts0 -> NoDup (map fst G0) ->
  steps spoil (G0, ts0) (G, ts1 ++ t :: ts2 ++ t' :: ts3) -> touches t x -> ~ touches t' x.
Proof. exact (fun U spoil js G0 ts0 G ts1 t ts2 t' ts3 x K ST ND R => never_race U K spoil js G0 ts0 G _ ST ND R ts1 t ts2 t' ts3 x eq_refl). Qed.
Print Assumptions C80_no_race.
(** or a block that was there before; *)
Theorem C80_hands_off : forall U spoil js G0 ts0 G ts t x, nfc_ok U -> started U js ts0 -> NoDup (map fst G0) -> steps spoil (G0, ts0) (G, ts) ->
  In t ts -> touches t x -> ~ In x (map fst G0).
Proof. exact (fun U spoil js G0 ts0 G ts t x K ST ND R => never_theirs U K spoil js G0 ts0 G ts ST ND R t x). Qed.
Print Assumptions C80_hands_off.
(** and every schedule ends, with all calls returned. *)
Theorem C80_ends : forall spoil (s : @system answer), Acc (fun s2 s1 => sstep spoil s1 s2) s.
Proof. exact (fun spoil => all_end spoil). Qed.
Print Assumptions C80_ends.
Theorem C80_no_deadlock : forall U spoil js G0 ts0 s, nfc_ok U -> started U js ts0 -> NoDup (map fst G0) -> steps spoil (G0, ts0) s ->
  exists s', steps spoil s s' /\ Forall done (snd s').
Proof. exact (fun U spoil js G0 ts0 s K => can_end U K spoil js G0 ts0 s). Qed.
Print Assumptions C80_no_deadlock.

(** A call that has returned has the result of the function, in a new block of
    its own; or IDN2_MALLOC, if its own allocations may fail. *)
Theorem C80_result : forall U js G0 ts0 G ts i j t, nfc_ok U -> started U js ts0 -> NoDup (map fst G0) -> steps false (G0, ts0) (G, ts) ->
  nth_error js i = Some j -> nth_error ts i = Some t -> done t ->
  exists m, incl m G /\ (forall x, In x (map fst m) -> ~ In x (map fst G0)) /\ answers U j t m.
Proof.
  exact (fun U js G0 ts0 G ts i j t K ST ND R H1 H2 D => match one_thread U K false js G0 ts0 G ts ST ND R i j t H1 H2 D with
    ex_intro _ m (conj IN (conj N (conj _ A))) => ex_intro _ m (conj IN (conj N (A eq_refl))) end).
Qed.
Print Assumptions C80_result.
(** When all have returned, the memory holds what it held before and their
    results, *)
Theorem C80_memory : forall U js G0 ts0 G ts, nfc_ok U -> started U js ts0 -> NoDup (map fst G0) -> steps false (G0, ts0) (G, ts) -> Forall done ts ->
  exists ms, length ms = length js /\ Permutation G (G0 ++ concat ms) /\
    forall i j t m, nth_error js i = Some j -> nth_error ts i = Some t -> nth_error ms i = Some m -> answers U j t m.
Proof.
  exact (fun U js G0 ts0 G ts K ST ND R D => match at_the_end U K false js G0 ts0 G ts ST ND R D with
    ex_intro _ ms (conj L (conj P X)) => ex_intro _ ms (conj L (conj P (fun i j t m H1 H2 H3 => proj2 (X i j t m H1 H2 H3) eq_refl))) end).
Qed.
Print Assumptions C80_memory.
(** and no more, whatever free does to errno. *)
Theorem C80_no_leak : forall U spoil js G0 ts0 G ts, nfc_ok U -> started U js ts0 -> NoDup (map fst G0) -> steps spoil (G0, ts0) (G, ts) -> Forall done ts ->
  exists ms, length ms = length js /\ Permutation G (G0 ++ concat ms) /\
    forall i j t m, nth_error js i = Some j -> nth_error ts i = Some t -> nth_error ms i = Some m -> leaves t m.
Proof.
  exact (fun U spoil js G0 ts0 G ts K ST ND R D => match at_the_end U K spoil js G0 ts0 G ts ST ND R D with
    ex_intro _ ms (conj L (conj P X)) => ex_intro _ ms (conj L (conj P (fun i j t m H1 H2 H3 => proj1 (X i j t m H1 H2 H3)))) end).
Qed.
Print Assumptions C80_no_leak.

Example C80_case_jobs : started ucd [lookup_job; loop_job] [here (text (job_coded ucd lookup_job)) false; here (text (job_coded ucd loop_job)) true].
Proof. exact case_jobs. Qed.
Example C80_case_run : exists G t1 t2 x,
  steps false ([(7, [1])], [here (text (job_coded ucd lookup_job)) false; here (text (job_coded ucd loop_job)) true]) (G, [t1; t2]) /\
  done t1 /\ done t2 /\ Permutation G [(7, [1]); (x, xn_buecher)].
Proof. exact case_run. Qed.
Example C80_case_static : touches (caller (static [1])) 7 /\ touches (caller (static [2])) 7 /\
  (exists G t2, steps false ([(7, [])], [caller (static [1]); caller (static [2])]) (G, [caller (Done [2]); t2])) /\
  forall E, alone E (static [1]) (Heap [(0%nat, [])] 1 0 0) = Ok ([1], Heap [(0%nat, [1])] 1 0 0).
Proof. exact case_static. Qed.
Example C80_case_stale : (exists G t1 t2, steps false ([], [caller stale; caller other]) (G, [t1; t2]) /\ finished t1 [2]) /\
  forall E, SpecHeap.plentiful E -> alone E stale (Heap [] 0 0 0) = Undef.
Proof. exact case_stale. Qed.
