(** C46: dynamic memory. *)
From Verif Require Import Base Uenv Api Register Heap SpecNfc SpecCli SpecHeap LookupExamples Ucd HeapTop HeapCases.
From Verif Require RegisterTop.

(** The functions on strings of bytes and of code points: one new block for the
    caller, or none, or IDN2_MALLOC and no trace after an allocation has failed. *)
Theorem C46_bytes : forall E U Lo junk j F P i flags, keeps_errno E -> nfc_ok U -> locale_ok Lo -> In (F, P) (byte_functions E U Lo junk j) ->
  bytes_arg i -> frugal E (fun o => F (given i) o flags) (fun c => P i c flags).
Proof. exact (fun E U Lo junk j F P i flags KE K LO H A => proj1 (bytes_sound E U K Lo junk j F P i flags LO H A) KE). Qed.
Print Assumptions C46_bytes.
Theorem C46_wide : forall E U junk j F P i flags, keeps_errno E -> nfc_ok U -> In (F, P) (wide_functions E U junk j) ->
  wide_arg i -> frugal E (fun o => F (given i) o flags) (fun c => P i c flags).
Proof. exact (fun E U junk j F P i flags KE K H A => proj1 (wide_sound E U K junk j F P i flags H A) KE). Qed.
Print Assumptions C46_wide.
Theorem C46_register : forall E U junk u a flags, keeps_errno E -> nfc_ok U -> bytes_arg u -> bytes_arg a ->
  frugal E (fun o => m_register_u8 E U junk (given u) (given a) o flags) (fun c => register_u8 U u a c flags).
Proof. exact (fun E U junk u a flags KE K BU BA => proj1 (register_sound_mem E U K junk u a flags BU BA) KE). Qed.
Print Assumptions C46_register.
Theorem C46_register_ul : forall E U Lo junk u a flags, keeps_errno E -> nfc_ok U -> locale_ok Lo -> bytes_arg u -> bytes_arg a ->
  frugal E (fun o => m_register_ul E U Lo junk (given u) (given a) o flags) (fun c => register_ul U Lo u a c flags).
Proof. exact (fun E U Lo junk u a flags KE K LO BU BA => proj1 (register_ul_sound E U K Lo junk u a flags LO BU BA) KE). Qed.
Print Assumptions C46_register_ul.
Theorem C46_4i : forall E U junk j i o flags, keeps_errno E -> nfc_ok U -> wide_arg i -> (forall a, o = Some a -> 63 <= zlen a) ->
  frugal_array E (m_to_ascii_4i E U junk (given i) o flags) (to_ascii_4i U j i o flags) o.
Proof. exact (fun E U junk j i o flags KE K A AO => proj1 (ascii_4i_frugal E U K junk j i o flags A AO) KE). Qed.
Print Assumptions C46_4i.
Theorem C46_44i : forall E junk j i arr n flags, keeps_errno E -> wide_arg i ->
  match arr, n with Some a, Some n => 0 <= n <= zlen a | _, _ => True end ->
  forall h, heap_ok h -> exists rc a n' h', m_to_unicode_44i E junk (given i) arr n flags h = Ok (rc, a, n', h') /\
    live h' = live h /\ (fresh h <= fresh h')%nat /\
    (to_unicode_44i j i arr n flags = Ok (rc, a, n') \/ (rc = IDN2_MALLOC /\ a = arr /\ n' = n /\ ran_out E h h')).
Proof. exact (fun E junk j i arr n flags KE A AO => proj1 (unicode_44i_frugal E junk j i arr n flags A AO) KE). Qed.
Print Assumptions C46_44i.

(** With enough memory: the results of the model without memory. *)
Theorem C46_bytes_exact : forall E U Lo junk j F P i flags, keeps_errno E -> plentiful E -> nfc_ok U -> locale_ok Lo ->
  In (F, P) (byte_functions E U Lo junk j) -> bytes_arg i -> exactly (fun o => F (given i) o flags) (fun c => P i c flags).
Proof. exact (fun E U Lo junk j F P i flags KE PL K LO H A => proj2 (proj2 (bytes_sound E U K Lo junk j F P i flags LO H A)) KE PL). Qed.
Print Assumptions C46_bytes_exact.
Theorem C46_wide_exact : forall E U junk j F P i flags, keeps_errno E -> plentiful E -> nfc_ok U ->
  In (F, P) (wide_functions E U junk j) -> wide_arg i -> exactly (fun o => F (given i) o flags) (fun c => P i c flags).
Proof. exact (fun E U junk j F P i flags KE PL K H A => proj2 (proj2 (wide_sound E U K junk j F P i flags H A)) KE PL). Qed.
Print Assumptions C46_wide_exact.
Theorem C46_register_exact : forall E U Lo junk u a flags, keeps_errno E -> plentiful E -> nfc_ok U -> locale_ok Lo -> bytes_arg u -> bytes_arg a ->
  exactly (fun o => m_register_u8 E U junk (given u) (given a) o flags) (fun c => register_u8 U u a c flags) /\
  exactly (fun o => m_register_ul E U Lo junk (given u) (given a) o flags) (fun c => register_ul U Lo u a c flags).
Proof.
  exact (fun E U Lo junk u a flags KE PL K LO BU BA => conj
    (proj2 (proj2 (register_sound_mem E U K junk u a flags BU BA)) KE PL)
    (proj2 (proj2 (register_ul_sound E U K Lo junk u a flags LO BU BA)) KE PL)).
Qed.
Print Assumptions C46_register_exact.

(** Whatever free does to errno: nothing is leaked, freed twice or used after
    having been freed. *)
Theorem C46_bytes_tidy : forall E U Lo junk j F P i flags, nfc_ok U -> locale_ok Lo -> In (F, P) (byte_functions E U Lo junk j) ->
  bytes_arg i -> tidy (fun o => F (given i) o flags).
Proof. exact (fun E U Lo junk j F P i flags K LO H A => proj1 (proj2 (bytes_sound E U K Lo junk j F P i flags LO H A))). Qed.
Print Assumptions C46_bytes_tidy.
Theorem C46_wide_tidy : forall E U junk j F P i flags, nfc_ok U -> In (F, P) (wide_functions E U junk j) ->
  wide_arg i -> tidy (fun o => F (given i) o flags).
Proof. exact (fun E U junk j F P i flags K H A => proj1 (proj2 (wide_sound E U K junk j F P i flags H A))). Qed.
Print Assumptions C46_wide_tidy.
Theorem C46_register_tidy : forall E U Lo junk u a flags, nfc_ok U -> locale_ok Lo -> bytes_arg u -> bytes_arg a ->
  tidy (fun o => m_register_u8 E U junk (given u) (given a) o flags) /\ tidy (fun o => m_register_ul E U Lo junk (given u) (given a) o flags).
Proof.
  exact (fun E U Lo junk u a flags K LO BU BA => conj
    (proj1 (proj2 (register_sound_mem E U K junk u a flags BU BA)))
    (proj1 (proj2 (register_ul_sound E U K Lo junk u a flags LO BU BA)))).
Qed.
Print Assumptions C46_register_tidy.
Theorem C46_4i_tidy : forall E U junk i o flags, nfc_ok U -> wide_arg i -> (forall a, o = Some a -> 63 <= zlen a) ->
  tidy_array (m_to_ascii_4i E U junk (given i) o flags).
Proof. exact (fun E U junk i o flags K A AO => proj2 (ascii_4i_frugal E U K junk None i o flags A AO)). Qed.
Print Assumptions C46_4i_tidy.
Theorem C46_44i_tidy : forall E junk i arr n flags, wide_arg i -> match arr, n with Some a, Some n => 0 <= n <= zlen a | _, _ => True end ->
  forall h, heap_ok h -> exists rc a n' h', m_to_unicode_44i E junk (given i) arr n flags h = Ok (rc, a, n', h') /\
    live h' = live h /\ (fresh h <= fresh h')%nat.
Proof. exact (fun E junk i arr n flags A AO => proj2 (unicode_44i_frugal E junk None i arr n flags A AO)). Qed.
Print Assumptions C46_44i_tidy.

(** idn2_free gives back what was handed out. *)
Theorem C46_free : forall E h n r h', heap_ok h -> unused h n -> live h' = (n, r) :: live h ->
  exists h'', m_idn2_free E (Some n) h' = Ok (tt, h'') /\ live h'' = live h.
Proof. exact free_restores. Qed.
Print Assumptions C46_free.

(** If free may change errno, running out of memory can be reported as an
    encoding error. *)
Theorem C46_any_errno_refuted : exists E l flags, nfc_ok ucd /\
  ~ frugal E (fun o => m_to_ascii_4i2 E ucd None (Some (Caller l)) o flags) (fun c => to_ascii_4i2 ucd None (Some l) c flags).
Proof. exact errno_lost. Qed.
Print Assumptions C46_any_errno_refuted.

Example C46_case : heap_ok start /\ keeps_errno generous /\ plentiful generous /\ keeps_errno (fails_at 0) /\ nfc_ok ucd /\
  bytes_arg (Some buecher) /\
  (exists h', m_lookup_u8 generous ucd None (given (Some buecher)) (Some None) 0 start = Ok (IDN2_OK, Some (Some 12%nat), h') /\
     live h' = (12%nat, xn_buecher) :: live start /\ calls h' = 18%nat) /\
  (forall n, In n [0; 1; 3; 5; 17]%nat ->
     exists h', m_lookup_u8 (fails_at n) ucd None (given (Some buecher)) (Some None) 0 start = Ok (IDN2_MALLOC, Some None, h') /\ live h' = live start).
Proof. exact case_bytes. Qed.
Example C46_case_wide : heap_ok start /\ keeps_errno (fails_at 1) /\ wide_arg (Some [66; 252]) /\
  (exists h', m_to_ascii_4i2 generous ucd None (given (Some [66; 252])) (Some None) 0 start = Ok (IDN2_OK, Some (Some 13%nat), h') /\
     live h' = (13%nat, [120;110;45;45;98;45;101;104;97]) :: live start) /\
  (exists h', m_to_ascii_4i2 (fails_at 1) ucd None (given (Some [66; 252])) (Some None) 0 start = Ok (IDN2_MALLOC, Some None, h') /\ live h' = live start).
Proof. exact case_wide. Qed.
Example C46_case_register : bytes_arg (Some RegisterTop.ue8) /\ bytes_arg (Some RegisterTop.xn_ue) /\
  (exists h', m_register_u8 generous ucd None (given (Some RegisterTop.ue8)) (given (Some RegisterTop.xn_ue)) (Some None) 1 start = Ok (IDN2_OK, Some (Some 7%nat), h') /\
     live h' = (7%nat, RegisterTop.xn_ue) :: live start) /\
  (forall n, In n [0; 1; 4; 6]%nat ->
     exists h', m_register_u8 (fails_at n) ucd None (given (Some RegisterTop.ue8)) (given (Some RegisterTop.xn_ue)) (Some None) 1 start = Ok (IDN2_MALLOC, Some None, h') /\ live h' = live start).
Proof. exact case_register. Qed.
Example C46_case_array : wide_arg (Some [66; 252]) /\ 63 <= zlen (repeat 1 64) /\
  (exists h', m_to_ascii_4i generous ucd None (given (Some [66; 252])) (Some (repeat 1 64)) 0 start =
     Ok (IDN2_OK, Some ([120;110;45;45;98;45;101;104;97] ++ repeat 1 55), h') /\ live h' = live start) /\
  (exists h', m_to_ascii_4i (fails_at 1) ucd None (given (Some [66; 252])) (Some (repeat 1 64)) 0 start = Ok (IDN2_MALLOC, Some (repeat 1 64), h') /\
     live h' = live start) /\
  (exists h', m_to_unicode_44i (fails_at 1) None (given (Some [66; 252])) (Some [5; 5]) (Some 2) 0 start = Ok (IDN2_MALLOC, Some [5; 5], Some 2, h') /\
     live h' = live start).
Proof. exact case_array. Qed.
