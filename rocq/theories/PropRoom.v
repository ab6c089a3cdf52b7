(** C78: enough memory. *)
From Verif Require Import Base Uenv Api Register Heap SpecNfc SpecLookup SpecCli SpecHeap SpecRoom LookupExamples Ucd HeapCases HeapRoomTop HeapRoomCases.
From Verif Require RegisterTop.

(** An allocator that grants whatever keeps the memory in use within [B] cells
    lets every function do its work whenever [B] is as large as stated. *)
Theorem C78_bytes : forall E U B Lo k junk j F P b i flags h, keeps_errno E -> nfc_ok U -> roomy E B -> locale_ok Lo -> grows Lo k -> 0 <= k ->
  In (F, P, b) (combine (byte_functions E U Lo junk j) (byte_needs k flags (size i))) ->
  bytes_arg i -> k * size i < two64 -> heap_ok h -> cells (live h) + b <= B ->
  exactly_in h (fun o => F (given i) o flags) (fun c => P i c flags).
Proof. exact (fun E U B Lo k junk j F P b i flags h KE K R => bytes_room E KE U K B R Lo k junk j F P b i flags h). Qed.
Print Assumptions C78_bytes.
Theorem C78_wide : forall E U B junk j F P b i flags h, keeps_errno E -> nfc_ok U -> roomy E B ->
  In (F, P, b) (combine (wide_functions E U junk j) (wide_needs flags (size i))) ->
  wide_arg i -> 4 * size i + 4 < two64 -> heap_ok h -> cells (live h) + b <= B ->
  exactly_in h (fun o => F (given i) o flags) (fun c => P i c flags).
Proof. exact (fun E U B junk j F P b i flags h KE K R => wide_room E KE U K B R junk j F P b i flags h). Qed.
Print Assumptions C78_wide.
Theorem C78_register : forall E U B junk u a flags h, keeps_errno E -> nfc_ok U -> roomy E B -> bytes_arg u -> bytes_arg a -> heap_ok h ->
  cells (live h) + register_needs (size u) <= B ->
  exactly_in h (fun o => m_register_u8 E U junk (given u) (given a) o flags) (fun c => register_u8 U u a c flags).
Proof. exact (fun E U B junk u a flags h KE K R => register_room E KE U K B R junk u a flags h). Qed.
Print Assumptions C78_register.
Theorem C78_register_ul : forall E U B Lo k junk u a flags h, keeps_errno E -> nfc_ok U -> roomy E B -> locale_ok Lo -> grows Lo k -> 0 <= k ->
  bytes_arg u -> bytes_arg a -> heap_ok h -> cells (live h) + k * size u + register_needs (k * size u) <= B ->
  exactly_in h (fun o => m_register_ul E U Lo junk (given u) (given a) o flags) (fun c => register_ul U Lo u a c flags).
Proof. exact (fun E U B Lo k junk u a flags h KE K R => register_ul_room E KE U K B R Lo k junk u a flags h). Qed.
Print Assumptions C78_register_ul.
Theorem C78_4i : forall E U B junk j i o flags h, keeps_errno E -> nfc_ok U -> roomy E B -> wide_arg i -> 4 * size i + 4 < two64 ->
  (forall a, o = Some a -> 63 <= zlen a) -> heap_ok h -> cells (live h) + 5 * size i + 5 + lookup_needs flags (4 * size i + 4) <= B ->
  exists rc a h', m_to_ascii_4i E U junk (given i) o flags h = Ok (rc, a, h') /\ live h' = live h /\ to_ascii_4i U j i o flags = Ok (rc, a).
Proof. exact (fun E U B junk j i o flags h KE K R => ascii_4i_room E KE U K B R junk j i o flags h). Qed.
Print Assumptions C78_4i.
Theorem C78_44i : forall E B junk j i arr n flags h, keeps_errno E -> roomy E B -> wide_arg i ->
  match arr, n with Some a, Some n => 0 <= n <= zlen a | _, _ => True end -> heap_ok h -> cells (live h) + 9 * size i + 272 <= B ->
  exists rc a n' h', m_to_unicode_44i E junk (given i) arr n flags h = Ok (rc, a, n', h') /\ live h' = live h /\
    to_unicode_44i j i arr n flags = Ok (rc, a, n').
Proof. exact (fun E B junk j i arr n flags h KE R => unicode_44i_room E KE B R junk j i arr n flags h). Qed.
Print Assumptions C78_44i.

(** No fixed amount of memory will do for lookup: a long enough string is turned
    down as out of memory before anything looks at its length. *)
Theorem C78_fixed_quota_refuted : ~ exists B, 0 <= B < two64 /\ forall E s flags, keeps_errno E -> roomy E B -> bytes_arg (Some s) ->
  exactly_in (Heap [] 0 0 0) (fun o => m_lookup_u8 E ucd None (given (Some s)) o flags) (fun c => idn2_lookup_u8 ucd (Some s) c flags).
Proof. exact no_fixed_quota. Qed.
Print Assumptions C78_fixed_quota_refuted.

Example C78_case : heap_ok start /\ cells (live start) = 1 /\ keeps_errno (quota 85681) /\ roomy (quota 85681) 85681 /\ nfc_ok ucd /\ bytes_arg (Some buecher) /\
  lookup_needs 0 (size (Some buecher)) = 85680 /\
  (exists h', m_lookup_u8 (quota 85681) ucd None (given (Some buecher)) (Some None) 0 start = Ok (IDN2_OK, Some (Some 12%nat), h') /\
     live h' = (12%nat, xn_buecher) :: live start) /\
  (exists h', m_lookup_u8 (quota 20) ucd None (given (Some buecher)) (Some None) 0 start = Ok (IDN2_MALLOC, Some None, h') /\ live h' = live start).
Proof. exact case_quota. Qed.
Example C78_case_rest : wide_arg (Some [66; 252]) /\ bytes_arg (Some RegisterTop.ue8) /\ bytes_arg (Some RegisterTop.xn_ue) /\
  (exists h', m_to_unicode_44i (quota 400) None (given (Some [66; 252])) (Some [5; 5]) (Some 2) 0 start = Ok (IDN2_OK, Some [66; 252], Some 2, h') /\ live h' = live start) /\
  (exists h', m_to_unicode_44i (quota 5) None (given (Some [66; 252])) (Some [5; 5]) (Some 2) 0 start = Ok (IDN2_MALLOC, Some [5; 5], Some 2, h') /\ live h' = live start) /\
  (exists h', m_register_u8 (quota 5101) ucd None (given (Some RegisterTop.ue8)) (given (Some RegisterTop.xn_ue)) (Some None) 1 start = Ok (IDN2_OK, Some (Some 7%nat), h') /\
     live h' = (7%nat, RegisterTop.xn_ue) :: live start).
Proof. exact case_quota_rest. Qed.
