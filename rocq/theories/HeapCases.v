(** Concrete runs for the claims about memory, and a refutation. *)
From Verif Require Import Base Uenv DataTypes DataTr46 SpecTables Utf8 Puny Idna Lookup Api Register SpecUtf8 SpecNfc SpecLookup SpecCli Ucd UcdProofs LookupProofs LookupExamples ApiProofs ApiExamples RegisterTop Heap SpecHeap HeapProofs HeapTop.
Transparent status_of mapping_of.

Definition generous : allocator := Allocator (fun _ _ => false) (fun _ => None).
(** The n-th call fails if it is an allocation. *)
Definition fails_at (n : nat) : allocator := Allocator (fun m _ => Nat.eqb n m) (fun _ => None).
Definition start : heap := Heap [(3%nat, [7])] 4 0 0.

Lemma free_restores : forall E h n r h', heap_ok h -> unused h n -> live h' = (n, r) :: live h ->
  exists h'', m_idn2_free E (Some n) h' = Ok (tt, h'') /\ live h'' = live h.
Proof.
  intros E h n r h' _ N H. unfold m_idn2_free, free. rewrite H. cbn [find_block drop_block]. rewrite Nat.eqb_refl.
  eexists. split; reflexivity.
Qed.
Lemma free_null : forall E h, exists h', m_idn2_free E None h = Ok (tt, h') /\ live h' = live h.
Proof. intros. eexists. split; reflexivity. Qed.
Lemma free_twice : forall E h n, unused h n -> m_idn2_free E (Some n) h = Undef.
Proof.
  intros E h n N. unfold m_idn2_free, free. destruct (find_block n (live h)) as [l|] eqn:F; [|reflexivity].
  exfalso. apply find_mem in F. exact (N l F).
Qed.

(** Two a's as code points; malloc works, the conversion runs out of memory, and
    free resets errno. *)
Definition forgetful : allocator := Allocator (fun m _ => Nat.eqb 1 m) (fun n => if Nat.eqb n 2 then Some 0 else None).
Lemma errno_lost : exists E l flags, nfc_ok ucd /\ ~ frugal E (fun o => m_to_ascii_4i2 E ucd None (Some (Caller l)) o flags) (fun c => to_ascii_4i2 ucd None (Some l) c flags).
Proof.
  exists forgetful, [97; 97], 0. split; [exact (proj1 case_buecher)|]. intros F. specialize (F (Heap [] 0 0 0) None).
  destruct F as (rc & o' & h' & R & _ & H); [intros n l []|]. vm_compute in R. injection R as <- <- <-. inversion H; subst.
  match goal with X : to_ascii_4i2 _ _ _ _ _ = _ |- _ => vm_compute in X; discriminate X end.
Qed.

(** ** Runs *)
Lemma start_ok : heap_ok start.
Proof. intros n l [H|[]]. injection H as <- <-. cbn [start fresh]. lia. Qed.
Lemma case_bytes : heap_ok start /\ keeps_errno generous /\ plentiful generous /\ keeps_errno (fails_at 0) /\ nfc_ok ucd /\
  bytes_arg (Some buecher) /\
  (exists h', m_lookup_u8 generous ucd None (given (Some buecher)) (Some None) 0 start = Ok (IDN2_OK, Some (Some 12%nat), h') /\
     live h' = (12%nat, xn_buecher) :: live start /\ calls h' = 18%nat) /\
  (forall n, In n [0; 1; 3; 5; 17]%nat ->
     exists h', m_lookup_u8 (fails_at n) ucd None (given (Some buecher)) (Some None) 0 start = Ok (IDN2_MALLOC, Some None, h') /\ live h' = live start).
Proof.
  split; [exact start_ok|]. split; [intros n; reflexivity|]. split; [intros n; reflexivity|]. split; [intros n; reflexivity|].
  destruct case_buecher as (K & C & _). split; [exact K|]. split; [intros s H; injection H as <-; split; [exact C|reflexivity]|]. split.
  - eexists. split; [vm_compute; reflexivity|]. split; reflexivity.
  - intros n H. repeat (destruct H as [<-|H]); try destruct H; eexists; (split; [vm_compute; reflexivity|reflexivity]).
Qed.
Lemma case_wide : heap_ok start /\ keeps_errno (fails_at 1) /\ wide_arg (Some [66; 252]) /\
  (exists h', m_to_ascii_4i2 generous ucd None (given (Some [66; 252])) (Some None) 0 start = Ok (IDN2_OK, Some (Some 13%nat), h') /\
     live h' = (13%nat, [120;110;45;45;98;45;101;104;97]) :: live start) /\
  (exists h', m_to_ascii_4i2 (fails_at 1) ucd None (given (Some [66; 252])) (Some None) 0 start = Ok (IDN2_MALLOC, Some None, h') /\ live h' = live start).
Proof.
  split; [exact start_ok|]. split; [intros n; reflexivity|]. split; [intros s H; injection H as <-; reflexivity|].
  split; eexists; (split; [vm_compute; reflexivity|reflexivity]).
Qed.
Lemma case_register : bytes_arg (Some ue8) /\ bytes_arg (Some xn_ue) /\
  (exists h', m_register_u8 generous ucd None (given (Some ue8)) (given (Some xn_ue)) (Some None) 1 start = Ok (IDN2_OK, Some (Some 7%nat), h') /\
     live h' = (7%nat, xn_ue) :: live start) /\
  (forall n, In n [0; 1; 4; 6]%nat ->
     exists h', m_register_u8 (fails_at n) ucd None (given (Some ue8)) (given (Some xn_ue)) (Some None) 1 start = Ok (IDN2_MALLOC, Some None, h') /\ live h' = live start).
Proof.
  split; [intros s H; injection H as <-; split; [unfold c_string, ue8; in_range_list|reflexivity]|].
  split; [intros s H; injection H as <-; split; [unfold c_string, xn_ue; in_range_list|reflexivity]|]. split.
  - eexists. split; [vm_compute; reflexivity|reflexivity].
  - intros n H. repeat (destruct H as [<-|H]); try destruct H; eexists; (split; [vm_compute; reflexivity|reflexivity]).
Qed.
Lemma case_array : wide_arg (Some [66; 252]) /\ 63 <= zlen (repeat 1 64) /\
  (exists h', m_to_ascii_4i generous ucd None (given (Some [66; 252])) (Some (repeat 1 64)) 0 start =
     Ok (IDN2_OK, Some ([120;110;45;45;98;45;101;104;97] ++ repeat 1 55), h') /\ live h' = live start) /\
  (exists h', m_to_ascii_4i (fails_at 1) ucd None (given (Some [66; 252])) (Some (repeat 1 64)) 0 start = Ok (IDN2_MALLOC, Some (repeat 1 64), h') /\
     live h' = live start) /\
  (exists h', m_to_unicode_44i (fails_at 1) None (given (Some [66; 252])) (Some [5; 5]) (Some 2) 0 start = Ok (IDN2_MALLOC, Some [5; 5], Some 2, h') /\
     live h' = live start).
Proof.
  split; [intros s H; injection H as <-; reflexivity|]. split; [vm_compute; discriminate|].
  split; [|split]; eexists; (split; [vm_compute; reflexivity|reflexivity]).
Qed.
