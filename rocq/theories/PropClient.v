(** C74: the fuzz targets.  C75: the example programs. *)
From Coq Require Import String.
From Verif Require Import Base Uenv Api Register Error SpecNfc SpecLookup SpecCli Ucd Idna Lookup Heap SpecHeap HeapCases Client SpecClient ClientTop ClientEx ClientCases.

(** C74.  Whatever the input and the allocator: no undefined behaviour, nothing
    leaked or freed twice; asserts stop the targets only when memory is short. *)
Theorem C74_register : forall E U Lo junk out0 data, nfc_ok U -> locale_ok Lo -> bytes data ->
  harmless E (fuzz_register E U Lo junk out0 data).
Proof. exact (fun E U Lo junk out0 data K LO => register_harmless E U K Lo LO junk out0 data). Qed.
Print Assumptions C74_register.
Theorem C74_to_ascii : forall E U Lo junk out0 garbage data, nfc_ok U -> locale_ok Lo -> arrays garbage -> bytes data ->
  harmless E (fuzz_to_ascii E U Lo junk out0 garbage data).
Proof. exact (fun E U Lo junk out0 garbage data K LO G => ascii_harmless E U K Lo LO junk out0 garbage G data). Qed.
Print Assumptions C74_to_ascii.
Theorem C74_to_unicode : forall E Lo version junk out0 garbage data, locale_ok Lo -> arrays garbage -> bytes data ->
  data <> [] \/ plentiful E -> harmless E (fuzz_to_unicode E Lo version junk out0 garbage data).
Proof. exact (fun E Lo version junk out0 garbage data LO G => unicode_harmless E Lo LO version junk out0 garbage G data). Qed.
Print Assumptions C74_to_unicode.
(** On no input at all this target writes through an unchecked result of malloc. *)
Theorem C74_to_unicode_refuted : exists E data, bytes data /\ keeps_errno E /\
  fuzz_to_unicode E unilocale [50] None (Some 9%nat) zeros data start = Undef.
Proof. exact in32_null. Qed.
Print Assumptions C74_to_unicode_refuted.
(** The registration target means to try the A-label "xn--" followed by the
    data; it tries that string without its last four bytes. *)
Theorem C74_alabel_cut : forall p d d', c_string (p ++ d) -> c_string (p ++ d') -> length d = 4%nat -> length d' = 4%nat ->
  upto0 (alabel_buffer (p ++ d)) = upto0 (alabel_buffer (p ++ d')).
Proof. exact alabel_blind. Qed.
Print Assumptions C74_alabel_cut.
Theorem C74_alabel_refuted : exists data, c_string data /\ upto0 (alabel_buffer data) <> ace_prefix ++ data.
Proof. exact alabel_not_tested. Qed.
Print Assumptions C74_alabel_refuted.
Example C74_case : nfc_ok ucd /\ locale_ok unilocale /\ arrays zeros /\ bytes fremd /\ bytes [98;0;0;0;252;0;0;0] /\ heap_ok start /\ plentiful generous /\
  ends (fuzz_register generous ucd unilocale None (Some 9%nat) fremd start) = Some (0, true, 13%nat) /\
  ends (fuzz_to_ascii generous ucd unilocale None (Some 9%nat) zeros [98;0;0;0;252;0;0;0] start) = Some (0, true, 415%nat) /\
  ends (fuzz_to_ascii generous ucd unilocale None (Some 9%nat) zeros [] start) = Some (0, true, 370%nat) /\
  ends (fuzz_to_unicode generous unilocale [50] None (Some 9%nat) zeros [57;0;0;0;252;0;0;0] start) = Some (0, true, 24%nat) /\
  ends (fuzz_to_unicode generous unilocale [50] None (Some 9%nat) zeros [] start) = Some (0, true, 37%nat) /\
  fuzz_register (fails_at 0) ucd unilocale None (Some 9%nat) fremd start = Fail SIGABRT.
Proof. exact fuzz_cases. Qed.

(** C75.  On a first line that fits, each example prints what the library makes
    of it, or the error, and frees everything. *)
Theorem C75_lookup : forall E U Lo junk out0 n l input, keeps_errno E -> nfc_ok U -> locale_ok Lo -> Z.of_nat n < two64 -> first_line n l input ->
  reports E (main_lookup E U Lo junk out0 n input) (fun c => idn2_lookup_ul U Lo (Some l) c 0)
    [Printf Stdout "Enter (possibly non-ASCII) domain name to lookup: " []]
    (fun r => Printf Stdout "IDNA2008 domain name to lookup in DNS: %s\n" [Str r]) failure.
Proof. exact (fun E U Lo junk out0 n l input KE K LO B H => proj1 (mains_line E U Lo junk out0 None n l input KE K LO B H)). Qed.
Print Assumptions C75_lookup.
Theorem C75_decode : forall E U Lo junk out0 j n l input, keeps_errno E -> nfc_ok U -> locale_ok Lo -> Z.of_nat n < two64 -> first_line n l input ->
  (forall x s, to_locale Lo x = Some s -> c_string s) ->
  reports E (main_decode E Lo junk out0 n input) (fun c => to_unicode_lzlz Lo j (Some l) c 0)
    [Printf Stdout "Enter (possibly non-ASCII) domain name to decode: " []]
    (fun r => Printf Stdout "Decoded domain name: %s\n" [Str r]) failure.
Proof. exact (fun E U Lo junk out0 j n l input KE K LO B H => proj1 (proj2 (mains_line E U Lo junk out0 j n l input KE K LO B H))). Qed.
Print Assumptions C75_decode.
Theorem C75_register : forall E U Lo junk out0 n l input, keeps_errno E -> nfc_ok U -> locale_ok Lo -> Z.of_nat n < two64 -> first_line n l input ->
  reports E (main_register E U Lo junk out0 n input) (fun c => register_ul U Lo (Some l) None c 0)
    [Printf Stdout "Enter (possibly non-ASCII) label to register: " []]
    (fun r => Printf Stdout "IDNA2008 label to register in DNS: %s\n" [Str r]) failure.
Proof. exact (fun E U Lo junk out0 n l input KE K LO B H => proj1 (proj2 (proj2 (mains_line E U Lo junk out0 None n l input KE K LO B H)))). Qed.
Print Assumptions C75_register.
Theorem C75_toascii : forall E U Lo junk out0 n l input, keeps_errno E -> nfc_ok U -> locale_ok Lo -> Z.of_nat n < two64 -> first_line n l input ->
  reports E (main_toascii E U junk out0 n input) (fun c => to_ascii_8z U (Some l) c IDN2_NONTRANSITIONAL)
    (dumped l) (fun r => Printf Stdout "ACE label (length %ld): '%s'\n" [Long (zlen r); Str r])
    (fun rc => Printf Stdout "ToASCII() failed (%d): %s\n" [Int rc; Msg (strerror rc)]).
Proof. exact (fun E U Lo junk out0 n l input KE K LO B H => proj1 (proj2 (proj2 (proj2 (mains_line E U Lo junk out0 None n l input KE K LO B H))))). Qed.
Print Assumptions C75_toascii.
Theorem C75_tounicode : forall E U Lo junk out0 j n l input, keeps_errno E -> nfc_ok U -> locale_ok Lo -> Z.of_nat n < two64 -> first_line n l input ->
  reports E (main_tounicode E junk out0 n input) (fun c => to_unicode_8z8z j (Some l) c 0)
    (dumped l) (fun r => Printf Stdout "ACE label (length %ld): '%s'\n" [Long (zlen r); Str r])
    (fun rc => Printf Stdout "ToUnicode() failed (%d): %s\n" [Int rc; Msg (strerror rc)]).
Proof. exact (fun E U Lo junk out0 j n l input KE K LO B H => proj2 (proj2 (proj2 (proj2 (mains_line E U Lo junk out0 j n l input KE K LO B H))))). Qed.
Print Assumptions C75_tounicode.
(** Without a newline at its end the last character of the line is lost: a
    lookup of l is reported although the line was l and one more. *)
Theorem C75_last_character_lost : forall E U Lo junk out0 n l x input, keeps_errno E -> nfc_ok U -> locale_ok Lo -> Z.of_nat n < two64 ->
  unfinished_line n (l ++ [x]) input ->
  reports E (main_lookup E U Lo junk out0 n input) (fun c => idn2_lookup_ul U Lo (Some l) c 0)
    [Printf Stdout "Enter (possibly non-ASCII) domain name to lookup: " []]
    (fun r => Printf Stdout "IDNA2008 domain name to lookup in DNS: %s\n" [Str r]) failure.
Proof. exact (fun E U Lo junk out0 n l x input KE K LO B H => proj1 (mains_unfinished E U Lo junk out0 None n l x input KE K LO B H)). Qed.
Print Assumptions C75_last_character_lost.
(** So is it where the line does not fit: the array holds what there is room for, and the last
    character of that is lost. *)
Theorem C75_long_line : forall E U Lo junk out0 n l x input, keeps_errno E -> nfc_ok U -> locale_ok Lo -> Z.of_nat n < two64 ->
  filled_line n (l ++ [x]) input ->
  reports E (main_lookup E U Lo junk out0 n input) (fun c => idn2_lookup_ul U Lo (Some l) c 0)
    [Printf Stdout "Enter (possibly non-ASCII) domain name to lookup: " []]
    (fun r => Printf Stdout "IDNA2008 domain name to lookup in DNS: %s\n" [Str r]) failure.
Proof. exact (fun E U Lo junk out0 n l x input KE K LO B H => proj1 (mains_filled E U Lo junk out0 None n l x input KE K LO B H)). Qed.
Print Assumptions C75_long_line.
(** So is the one before a NUL. *)
Theorem C75_nul_inside : forall E U Lo junk out0 n l x input, keeps_errno E -> nfc_ok U -> locale_ok Lo -> Z.of_nat n < two64 ->
  nul_line n (l ++ [x]) input ->
  reports E (main_lookup E U Lo junk out0 n input) (fun c => idn2_lookup_ul U Lo (Some l) c 0)
    [Printf Stdout "Enter (possibly non-ASCII) domain name to lookup: " []]
    (fun r => Printf Stdout "IDNA2008 domain name to lookup in DNS: %s\n" [Str r]) failure.
Proof. exact (fun E U Lo junk out0 n l x input KE K LO B H => proj1 (mains_nul E U Lo junk out0 None n l x input KE K LO B H)). Qed.
Print Assumptions C75_nul_inside.
(** The other four in these three cases. *)
Theorem C75_others_cut : forall E U Lo junk out0 j n l x input, keeps_errno E -> nfc_ok U -> locale_ok Lo -> Z.of_nat n < two64 ->
  unfinished_line n (l ++ [x]) input \/ filled_line n (l ++ [x]) input \/ nul_line n (l ++ [x]) input ->
  ((forall y s, to_locale Lo y = Some s -> c_string s) ->
   reports E (main_decode E Lo junk out0 n input) (fun c => to_unicode_lzlz Lo j (Some l) c 0)
     [Printf Stdout "Enter (possibly non-ASCII) domain name to decode: " []]
     (fun r => Printf Stdout "Decoded domain name: %s\n" [Str r]) failure) /\
  reports E (main_register E U Lo junk out0 n input) (fun c => register_ul U Lo (Some l) None c 0)
    [Printf Stdout "Enter (possibly non-ASCII) label to register: " []]
    (fun r => Printf Stdout "IDNA2008 label to register in DNS: %s\n" [Str r]) failure /\
  reports E (main_toascii E U junk out0 n input) (fun c => to_ascii_8z U (Some l) c IDN2_NONTRANSITIONAL)
    (dumped l) (fun r => Printf Stdout "ACE label (length %ld): '%s'\n" [Long (zlen r); Str r])
    (fun rc => Printf Stdout "ToASCII() failed (%d): %s\n" [Int rc; Msg (strerror rc)]) /\
  reports E (main_tounicode E junk out0 n input) (fun c => to_unicode_8z8z j (Some l) c 0)
    (dumped l) (fun r => Printf Stdout "ACE label (length %ld): '%s'\n" [Long (zlen r); Str r])
    (fun rc => Printf Stdout "ToUnicode() failed (%d): %s\n" [Int rc; Msg (strerror rc)]).
Proof. exact mains_cut. Qed.
Print Assumptions C75_others_cut.
(** A line that begins with NUL: they all write before their array. *)
Theorem C75_nul_first_undefined : forall E U Lo junk out0 n rest h, (2 <= n)%nat ->
  main_lookup E U Lo junk out0 n (0 :: rest) h = Undef /\ main_decode E Lo junk out0 n (0 :: rest) h = Undef /\
  main_register E U Lo junk out0 n (0 :: rest) h = Undef /\ main_toascii E U junk out0 n (0 :: rest) h = Undef /\
  main_tounicode E junk out0 n (0 :: rest) h = Undef.
Proof. exact nul_first. Qed.
Print Assumptions C75_nul_first_undefined.
(** No input: three programs complain, two go on with an array never set. *)
Theorem C75_no_input : forall E U Lo junk out0 n h,
  main_lookup E U Lo junk out0 n [] h = Ok (1, [Printf Stdout "Enter (possibly non-ASCII) domain name to lookup: " []; Perror], h) /\
  main_decode E Lo junk out0 n [] h = Ok (1, [Printf Stdout "Enter (possibly non-ASCII) domain name to decode: " []; Perror], h) /\
  main_register E U Lo junk out0 n [] h = Ok (1, [Printf Stdout "Enter (possibly non-ASCII) label to register: " []; Perror], h) /\
  main_toascii E U junk out0 n [] h = Undef /\ main_tounicode E junk out0 n [] h = Undef.
Proof. exact no_input. Qed.
Print Assumptions C75_no_input.
(** These are all the cases there are. *)
Theorem C75_every_input : forall n input, (2 <= n)%nat -> bytes input -> input = [] \/ (exists rest, input = 0 :: rest) \/ (exists l, first_line n l input) \/
  exists l x, unfinished_line n (l ++ [x]) input \/ filled_line n (l ++ [x]) input \/ nul_line n (l ++ [x]) input.
Proof. exact every_line. Qed.
Print Assumptions C75_every_input.
Example C75_case : nfc_ok ucd /\ locale_ok unilocale /\ (forall x s, to_locale unilocale x = Some s -> c_string s) /\ heap_ok start /\ keeps_errno generous /\
  first_line 100 fremd (fremd ++ [10;97]) /\ first_line 100 xn_fremd (xn_fremd ++ [10]) /\ unfinished_line 100 (fremd ++ [33]) (fremd ++ [33]) /\ filled_line 9 (fremd ++ [33]) (fremd ++ [33;97;10]) /\ nul_line 100 (fremd ++ [33]) (fremd ++ [33;0;97;10]) /\
  said (main_lookup generous ucd unilocale None (Some 9%nat) 100 (fremd ++ [10;97]) start) =
    Some (0, [Printf Stdout "Enter (possibly non-ASCII) domain name to lookup: " [];
              Printf Stdout "IDNA2008 domain name to lookup in DNS: %s\n" [Str xn_fremd] ], true) /\
  said (main_decode generous unilocale None (Some 9%nat) 100 (xn_fremd ++ [10]) start) =
    Some (0, [Printf Stdout "Enter (possibly non-ASCII) domain name to decode: " [];
              Printf Stdout "Decoded domain name: %s\n" [Str fremd] ], true) /\
  said (main_register generous ucd unilocale None (Some 9%nat) 100 (fremd ++ [10;97]) start) =
    Some (0, [Printf Stdout "Enter (possibly non-ASCII) label to register: " [];
              Printf Stdout "IDNA2008 label to register in DNS: %s\n" [Str xn_fremd] ], true) /\
  said (main_toascii generous ucd None (Some 9%nat) 100 ([98;195;188;10]) start) =
    Some (0, [Printf Stdout "Read string (length %ld): " [Long 3]; Printf Stdout "%02x " [Uint 98]; Printf Stdout "%02x " [Uint 195];
              Printf Stdout "%02x " [Uint 188]; Printf Stdout "\n" [];
              Printf Stdout "ACE label (length %ld): '%s'\n" [Long 9; Str [120;110;45;45;98;45;101;104;97] ] ], true) /\
  said (main_tounicode generous None (Some 9%nat) 100 ([255;10]) start) =
    Some (1, [Printf Stdout "Read string (length %ld): " [Long 1]; Printf Stdout "%02x " [Uint 255]; Printf Stdout "\n" [];
              Printf Stdout "ToUnicode() failed (%d): %s\n" [Int (-200); Msg "string encoding error"] ], true).
Proof. exact example_cases. Qed.
