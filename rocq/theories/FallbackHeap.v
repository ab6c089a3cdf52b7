(** The fallback with a heap: the second attempt succeeds, or runs out of memory. *)
From Verif Require Import Base PunyBase Uenv Api Heap SpecNfc SpecLookup SpecHeap Ucd HeapCases Fallback FallbackCases.

Lemma heap_case : heap_ok start /\ keeps_errno generous /\ keeps_errno (fails_at 16) /\
  (exists n h', m_to_ascii_fallback generous ucd None (Some (Caller coffee)) (Some None) start = Ok (IDN2_OK, Some (Some n), h') /\ live h' = (n, ace_coffee) :: live start /\ (20 < calls h')%nat) /\
  (exists h', m_to_ascii_fallback (fails_at 16) ucd None (Some (Caller coffee)) (Some None) start = Ok (IDN2_MALLOC, Some None, h') /\ live h' = live start).
Proof.
  split; [exact start_ok|]. split; [intros n; reflexivity|]. split; [intros n; reflexivity|]. split.
  - do 2 eexists. split; [vm_compute; reflexivity|]. split; [reflexivity|]. cbn [calls]. lia.
  - eexists. split; [vm_compute; reflexivity|reflexivity].
Qed.
