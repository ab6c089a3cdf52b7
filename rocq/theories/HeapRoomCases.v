(** Quotas: concrete runs, and an input for every quota that exhausts it. *)
From Verif Require Import Base Uenv DataTypes DataTr46 SpecTables Utf8 Puny Idna Lookup Api Register PunyBase SpecUtf8 Utf8Proofs SpecNfc SpecLookup SpecCli Ucd UcdProofs LookupProofs LookupCodes LookupExamples RegisterTop Heap SpecHeap SpecRoom HeapProofs HeapTop HeapCases HeapRoomTop.
From Verif Require Import Heap.
Transparent status_of mapping_of.

Lemma ok_eq : forall A (x y : A), Ok x = Ok y -> x = y.
Proof. intros A x y H. now injection H. Qed.
(** At most [B] cells in use at any time. *)
Definition quota (B : Z) : allocator := Allocator (fun _ k => B <? k) (fun _ => None).
Lemma quota_roomy : forall B, roomy (quota B) B.
Proof. intros B n k H. apply Z.ltb_ge. lia. Qed.

Definition as_ (n : Z) : list Z := repeat 97 (Z.to_nat n).
Lemma as_len : forall n, 0 <= n -> zlen (as_ n) = n.
Proof. intros n H. unfold zlen, as_. rewrite repeat_length. lia. Qed.
Lemma as_string : forall n, c_string (as_ n).
Proof. intros n. apply Forall_forall. intros x I. apply repeat_spec in I. subst x. lia. Qed.

Lemma hbind_ok : forall A B (m : M A) (k : A -> M B) h a h', m h = Ok (a, h') -> hbind m k h = k a h'.
Proof. intros A B m k h a h' H. unfold hbind. now rewrite H. Qed.
Lemma quota_exhausted : forall B o, 0 <= B -> exists h',
  m_lookup_u8 (quota B) ucd None (given (Some (as_ B))) o 0 (Heap [] 0 0 0) = Ok (IDN2_MALLOC, o, h').
Proof.
  intros B o H. set (h1 := Heap [] 0 1 ENOMEM). exists h1.
  assert (X : u8_to_u32 (as_ B ++ [0]) = Some (as_ B ++ [0])).
  { apply u8_to_u32_ascii. apply Forall_app. split; [|repeat constructor; lia]. apply Forall_forall. intros x I. apply repeat_spec in I. subst x. lia. }
  assert (T : forall fl, m_tr46 (quota B) ucd (Caller (as_ B)) fl None (Heap [] 0 0 0) = Ok (IDN2_MALLOC, None, h1)).
  { intros fl. unfold m_tr46. rewrite (hbind_ok _ _ _ _ _ (as_ B) (Heap [] 0 0 0)) by reflexivity. rewrite X.
    rewrite (hbind_ok _ _ _ _ _ None h1); [reflexivity|]. unfold acquire, quota. cbn [fails calls live cells request].
    rewrite zlen_app, as_len by lia. change (zlen [0]) with 1. rewrite (proj2 (Z.ltb_lt B (0 + (B + 1)))) by lia. reflexivity. }
  unfold m_lookup_u8, given, option_map.
  rewrite (hbind_ok _ _ _ _ _ (inl IDN2_NONTRANSITIONAL) (Heap [] 0 0 0)) by reflexivity.
  change (negb (has IDN2_NONTRANSITIONAL IDN2_NO_TR46)) with true. cbv iota.
  rewrite (hbind_ok _ _ _ _ _ (inr IDN2_MALLOC) h1); [reflexivity|]. rewrite (hbind_ok _ _ _ _ _ _ _ (T _)). reflexivity.
Qed.

Lemma lookup_not_malloc : forall s c c', c_string s -> zlen s < two64 -> ~ idn2_lookup_u8 ucd (Some s) c 0 = Ok (IDN2_MALLOC, c').
Proof.
  intros s c c' C Z P. unfold idn2_lookup_u8, deliver in P. destruct (lookup_u8 ucd s 0) as [r|rc| |] eqn:X; try discriminate.
  apply ok_eq in P. apply (f_equal fst) in P. cbn [fst] in P. subst rc. apply lookup_codes in X; [|exact ucd_nfc_ok|exact C|exact Z].
  destruct X as [(_ & X)|(_ & X)]; [discriminate|]. exact (proj1 (proj2 (proj2 case_codes)) X).
Qed.
Lemma no_fixed_quota : ~ exists B, 0 <= B < two64 /\ forall E s flags, keeps_errno E -> roomy E B -> bytes_arg (Some s) ->
  exactly_in (Heap [] 0 0 0) (fun o => m_lookup_u8 E ucd None (given (Some s)) o flags) (fun c => idn2_lookup_u8 ucd (Some s) c flags).
Proof.
  intros (B & H & F). specialize (F (quota B) (as_ B) 0). destruct F with (o := @None (option nat)) as (rc & o' & h' & R & P).
  - intros n. reflexivity.
  - apply quota_roomy.
  - intros s X. injection X as <-. split; [apply as_string|]. rewrite as_len; lia.
  - destruct (quota_exhausted B None) as (h1 & Y); [lia|]. rewrite Y in R. apply ok_eq in R. apply (f_equal (fun p => fst (fst p))) in R. cbn [fst] in R. subst rc.
    revert P. apply lookup_not_malloc; [apply as_string|]. rewrite as_len; lia.
Qed.

Lemma case_quota : heap_ok start /\ cells (live start) = 1 /\ keeps_errno (quota 85681) /\ roomy (quota 85681) 85681 /\ nfc_ok ucd /\ bytes_arg (Some buecher) /\
  lookup_needs 0 (size (Some buecher)) = 85680 /\
  (exists h', m_lookup_u8 (quota 85681) ucd None (given (Some buecher)) (Some None) 0 start = Ok (IDN2_OK, Some (Some 12%nat), h') /\
     live h' = (12%nat, xn_buecher) :: live start) /\
  (exists h', m_lookup_u8 (quota 20) ucd None (given (Some buecher)) (Some None) 0 start = Ok (IDN2_MALLOC, Some None, h') /\ live h' = live start).
Proof.
  split; [exact start_ok|]. split; [reflexivity|]. split; [intros n; reflexivity|]. split; [apply quota_roomy|].
  destruct case_buecher as (K & C & _). split; [exact K|]. split; [intros s H; injection H as <-; split; [exact C|reflexivity]|].
  split; [reflexivity|]. split; eexists; (split; [vm_compute; reflexivity|reflexivity]).
Qed.
Lemma case_quota_rest : wide_arg (Some [66; 252]) /\ bytes_arg (Some ue8) /\ bytes_arg (Some xn_ue) /\
  (exists h', m_to_unicode_44i (quota 400) None (given (Some [66; 252])) (Some [5; 5]) (Some 2) 0 start = Ok (IDN2_OK, Some [66; 252], Some 2, h') /\ live h' = live start) /\
  (exists h', m_to_unicode_44i (quota 5) None (given (Some [66; 252])) (Some [5; 5]) (Some 2) 0 start = Ok (IDN2_MALLOC, Some [5; 5], Some 2, h') /\ live h' = live start) /\
  (exists h', m_register_u8 (quota 5101) ucd None (given (Some ue8)) (given (Some xn_ue)) (Some None) 1 start = Ok (IDN2_OK, Some (Some 7%nat), h') /\
     live h' = (7%nat, xn_ue) :: live start).
Proof.
  split; [intros s H; injection H as <-; reflexivity|]. destruct case_register as (X1 & X2 & _). split; [exact X1|]. split; [exact X2|].
  repeat split; eexists; (split; [vm_compute; reflexivity|reflexivity]).
Qed.
