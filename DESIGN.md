# Formal model of libidn2 in Rocq (Coq 8.16.1)

## Method

The C code under /repo/lib and /repo/src/idn2.c is transcribed function by
function into total Gallina functions.  Integers are `Z`; 32-bit and 64-bit
wrap-around is written explicitly (`u32`, `u64`).  Buffers are lists together
with a capacity.  Every function returns

    Ok a | Fail rc | Undef | NoFuel

`Undef` is undefined behaviour (access outside a buffer, use of an unset or
freed pointer, double free, missing terminator), `NoFuel` is exhaustion of the
recursion fuel of a loop.  The safety theorems say that neither is reached.
C strings are lists of bytes in 1..255 (`c_string`); the terminator is implicit.

Files come in groups:

* models: `Puny Utf8 Bsearch Tables Gentr46 Tr46Tables Tr46Map Bidi Context
  Idna Lookup Api Register Error Version Cli Heap Scan GenText Client Thread
  Compat Width` (each definition
  cites file and lines in /repo), `CLang`, a part of C11, with `CPuny`, `CLabel`,
  `CTables`, `CLookup`, `CUnicode`, `CRegister`, `CWrap`, `CUni`, `CUni44` and `CRegUl`,
  the text of the Punycode coder, of the label tests, of the table lookups, of lookup.c,
  of decode.c and of register.c in it, and `Step`, the same functions counting loop
  iterations;
* specifications, written from the RFCs, UTS #46, idn2.h and the manual without
  reference to the models: `Spec*.v`;
* proofs: all other files;
* property theorems: `Prop*.v`, nothing else in them; each theorem is closed by
  `exact`, followed by `Print Assumptions`, with a concrete case beside it.

## Trusted base

* The Coq kernel, including its virtual machine (`vm_compute` is used for facts
  about the shipped tables and for the concrete cases).  `coqchk` rechecks
  everything without the virtual machine.
* `Print Assumptions` says "Closed under the global context" for every theorem
  in `Prop*.v`: no axiom is used, neither of our own nor of the standard
  library.  (`coqchk -o` lists seven parameters of the module type in
  `Coq.ssr.ssrunder`, which is loaded by the standard library; nothing
  depends on them.)
* The transcription from C, checked by reading and by running the model on the
  vectors of /repo/tests (see "Validation").
* For C92 to C102, `CLang.v` as a reading of C11 (LP64 machine, conversion to a signed type
  wraps round as in GCC and Clang) and `CPuny.v`, `CLabel.v`, `CTables.v`, `CLookup.v` as a copy of the text: there the
  transcription is statement by statement into C's own operators, and what these
  mean is not decided function by function.  Arrays reached through different
  parameters do not overlap.  Not in the language: pointers stored in variables,
  structures, goto, switch.
  In `CLabel.v` (C93) a switch is a chain of comparisons (its cases all end with a
  return), a bool is a uint8_t, and a pointer walking over an array is an index.
  The functions called from other files are given by Gallina functions: those of
  libunistring by `U`, those of tables.c and tr46map.c by their models.  Of the
  structures that get_nfcqc_map and get_idna_map give out, the one field used is
  passed; strcmp with the name of a script and memcmp with the normalised label are
  one call each; u32_normalize fails with an errno other than ENOMEM.
  In `CTables.v` (C94) an array of structures is an array for each member, a
  structure has one array of length 1 for each member, and a pointer to an element or
  into an array of bytes is an index, -1 for NULL.  What is stored in a uint16_t or a
  bit-field is masked explicitly.  `_fill_map` stands in the text of its two callers;
  memset of the structure is an assignment to each member; do .. while is a loop with a
  break.  Arrays of file scope are parameters.  bsearch is any function that does what
  C11 7.22.5.1 says (`c11_bsearch`), called back with the text of the comparison
  functions: for the tables the algorithm of `Bsearch.v` is not trusted.  The contents
  of the arrays are those of `Tables.v` and `Tr46Tables.v`, which C37 and C38 tie to
  the data files.
  In `CLookup.v` (C95) _tr46 stands in three parts, cut where it calls malloc,
  u32_normalize and u32_to_u8; idn2_lookup_u8 is the loop over the labels, after
  set_default_flags and _tr46.  How the parts follow each other is `lookup_text` in
  `SpecCLookup.v`, a reading of lookup.c:262-282, 399-408, 468-487 and 535-562, where
  memory is not short and the calls to free are left out.  A pointer into a string is
  an index; the arrays that a callee fills (ace, name_u32, tmp, dst) are read through
  calls of their own, e.g. "label tmp" for tmp [k] after label().  u8_to_u32,
  u32_to_u8, u32_normalize and strchrnul are as in the rest of the model.  label()
  is any function with values in its buffer for the loop, and the model of C58 for the
  whole; _idn2_label_test and the Punycode decoder are the models that C92 and C93
  tie to their text.
  The text of label() itself (C96) calls _idn2_ascii_p, memcmp, u32_to_u8, u32_cmp,
  _idn2_u8_to_u32_nfc, the Punycode coder and _idn2_label_test; each call that fills
  an array stands as a call for its code, one for the length and one for each
  element, and the loop `fill` stores the elements.  The coder's bound and the room
  behind the pointer are both handed over, so a wrong tmpl or a wrong dst + 4 shows.
  c_strncasecmp is run as text.  src_allocated and p are arrays with room for what
  the callee writes; "out:" only frees, so a goto out is a return there.
  The text of decode.c (C97) calls u8_to_u32, the Punycode decoder and u32_strlen in
  the same way; label_u32 keeps between turns of the loop what C leaves undefined
  there, and the theorems quantify over what it holds.  The result of u32_cpy_alloc
  stands as the number of elements it is told to copy.
  The text of register.c (C98) is split at alabel == NULL.  strlen, strcmp,
  _idn2_label_test and the conversions are calls; so is the call of idn2_register_u8 by
  itself, and the theorems say that its value is that of the U-label text (C98_inner
  shows that this can be met).  *insertname is an array of 64 bytes to which strdup
  copies; failing allocations and two NULL arguments stay in the models (C19, C46).
  In the functions around idn2_lookup_u8 and in _idn2_u8_to_u32_nfc (C99) a conversion
  that returns NULL is one that returns -1, an allocated result is an array given from
  outside that must have room for it, and idn2_lookup_u8 and idn2_to_ascii_4i2 are calls
  whose values are those of their own texts (C99_lookup and C99_four show that this can
  be met).  p = tmp and *out = p copy the array.  NULL inputs stay in the model (C19).
  The functions around idn2_to_unicode_8z4z (C100) are read in the same way: each calls
  the one below it as a function whose values are those of its own text (C100_has).
  So are idn2_to_unicode_44i (C101), for an input that is not NULL, and idn2_register_ul
  (C102), for calls in which not both labels are NULL; in the latter errno is not there,
  and a NULL from u8_strconv_from_encoding is read as a failing conversion.
* For C73, the places of the ticks in `Step.v`: one at the head of every loop of
  the C code.  That the counting functions `c_f` compute what the model's `f`
  computes is proved (`StepProofs.v`).  Time inside malloc, iconv, u32_normalize
  and the character queries of libunistring is not counted.
* `tools/mktext.py`, which copies the three data files of /repo/lib byte by byte
  into Coq strings (`TextIdna.v TextProps.v TextCsv.v`; `mktext.py --check`
  compares them with /repo).  The rows in `DataTr46.v DataNfc.v DataCsv.v`,
  written by `tools/mkdata.py`, are proved to be what these texts say
  (`C62_shipped`), so mkdata.py is not trusted.  Reading the texts (`Scan.v`),
  sorting, merging, packing and bit fields (`Gentr46.v`, `Tables.v`) are
  modelled and run inside Coq.

### What is external

* libunistring Unicode data and normalisation (`u32_normalize`,
  `uc_combining_class`, `uc_bidi_category`, `uc_joining_type`, `uc_script`,
  `uc_is_general_category`) are the fields of a record `uenv`, over which every
  theorem quantifies.  What a theorem needs to know of them is an explicit
  hypothesis:
  * `nfc_ok`: NUL and '.' neither combine nor arise in NFC, ASCII is unchanged,
    code points stay code points, length at most quadruples;
  * `qc_sound`: the quick check of UAX #15 is sound for this NFC (only where
    the claim is about NFC itself);
  * `nfc_no_ldh`: NFC turns no other string into letters, digits and hyphens
    (only registration with IDN2_NFC_INPUT).
  `Ucd.v` is Normalization Form C over the character data of Unicode 14
  (`DataUcd.v`, written by `tools/mkucd.py`); `UcdProofs.v` proves that it
  satisfies all three (`C41_unicode_data`).  The concrete cases and the
  counterexamples in the `_refuted` theorems are about this database.
  So are C83 and C84, which also use the case mappings and compatibility
  decompositions in `DataCase.v` (same script): there the data are part of what
  the theorems say, and that they are the data of Unicode 14 rests on Python's
  `unicodedata` and Perl's `Unicode::UCD`.
* `u8_to_u32`, `u32_to_u8` are modelled concretely as strict UTF-8 (`Utf8.v`);
  `u32_cpy`, `u32_strlen`, `strlen`, `memcpy`, `strchr`, `bsearch` likewise.
* Locale conversion (`u8_strconv_from_encoding`, `u8_strconv_to_locale`) is an
  arbitrary pair of partial functions; where the converted string is processed
  further, `locale_ok` says that it is a C string shorter than 2^64 bytes.
* `strverscmp` is transcribed from glibc (`Version.v`).
* `malloc`, `strdup`, `free` and `errno` are modelled in `Heap.v` with an
  arbitrary schedule of failures, which may depend on how many cells (bytes or
  code points) would be in use; each libunistring function that returns a new
  string is one allocation of the size of its result there.  In all other files
  allocations succeed.
* The option parser of the command line tool is generated by gengetopt and not
  modelled; `Cli.v` starts from the parsed options.  Standard input, locale and
  the three streams are arguments and events.

### Not modelled

* Programs in /repo/fuzz and /repo/examples: `Client.v` has the entry points of the
  three fuzz targets and the five examples; fuzz/main.c (a driver reading
  files) is left out, and so is what printf makes of its format.
* The C compiler: `SpecCText.v` reads the declarations of the generated files as
  C11 has them.
* `src/idn2.c`: texts of --help and --version, the strings that `hexdump` leaks
  (its text is in `Hexdump.v`; the leak only matters for the tool's exit),
  translation of messages (gettext is the identity).
* `idn2_free` is `free`.
* Threads (`Thread.v`, C80): a step is one operation on one block of the common
  memory, in any order among the threads.  Since no two threads ever use the same
  block (C80_no_race), finer steps and weaker memory orders make no difference.
  Not modelled, but read off the source: the library has no static variable that
  it writes, its tables are `const`, and the strings of the callers are only read;
  errno is per thread (C11); libunistring, iconv and malloc are thread safe; the
  locale is not changed while a function that uses it runs.  Blocks of the rest of
  the program (`G0`) stay as they are while the calls run; a program that frees
  results in between is the job `CLoop`.
* Lengths: outside `Width.v` strings have fewer than 2^64 bytes, arrays of code
  points fewer than 2^62 elements, and sums of sizes do not wrap round.  C82
  (`Width.v`) says for which sizes that is so and shows where it is not.

## Where the model is simpler than the code

* Pointers into a name are the remaining suffix, pairs (pointer, length) are
  the sublist.
* Buffers written front to back are the list of what has been written, with an
  explicit test against the capacity at each write.
* In `Heap.v` a block is never changed after it has been filled, so reading
  through a pointer is a test that the block is live plus the known contents.
* Local pointer variables start with arbitrary contents (`junk`).

## Plan per property

Statements: properties.jsonl.  Theorems: MANIFEST.json.

| Property | Model | How it is proved |
|---|---|---|
| C01,C02 | Puny | simulation of encoder by decoder state; uniqueness of variable-length integers |
| C03-C06 | Puny | loop invariants over the checked buffer |
| C51,C53 | Puny, SpecPuny | against a relational transcription of RFC 3492 in unbounded integers |
| C07,C08,C52 | Lookup | invariants on the output buffer, per label |
| C09-C11 | Lookup, Api | C01/C02 plus stability of the mapping (C40) |
| C57,C58 | Puny, Lookup, SpecToAscii | equivalence with a relation written from RFC 3492, RFC 5891 and UTS #46: encoder against C53, then label by label |
| C59-C61, C63 | Lookup, SpecToAscii | consequences of C58; the converses of C60 and C61 with the hypothesis they need (FlagConverse), and witnesses that they fail without it (FlagExamples) |
| C64 | Lookup, SpecRefusal | failure of label() and of both loops step by step, in both directions; reuses the lemmas of C58 |
| C65 | Lookup, SpecUts46 | ToASCII of UTS #46 with its parameters as a relation; label by label from C58; witnesses computed with the Unicode 14 data |
| C66 | Register, SpecRegRefusal | failure of both branches of idn2_register_u8 step by step, in both directions; the A-label branch from uniqueness of the canonical encoding |
| C67 | Puny, SpecPunyErr | decoder: induction over the digits of one integer, then over the integers, in both directions; encoder: each handled code point has written a byte, so no counter overflows, and the rest from C58's exactness of the encoder |
| C68 | Api, SpecUniRefusal | one label: decoder by C67, UTF-8 by its exactness; names: induction over the labels with the result so far; the variants by C25/C26 |
| C69 | Lookup, Api, SpecUnicode | each label of a result is plain ASCII or the canonical encoding of its decoding, so its Unicode form determines it; C11 for the way from the name |
| C70 | SpecToAscii, SpecNfcFlag | from C58: the two specifications differ in one condition per label |
| C71 | SpecUts46, SpecUniUts46, SpecUnicode | label by label; canonical A-labels from C65's lemmas; witnesses |
| C72 | GenText (printf), SpecCText (C declarations) | every piece of text has tokens of its own whatever follows; numbers by their digits; sizes by induction over the entries |
| C73 | the modelled functions with their loops counted, Step.v | same results as the model by lockstep induction; the counts as recursive functions (Cost.v), bounded by induction; the encoder by its room (every round handles a code point and writes a byte), ZWNJ searches amortised over the label; `repeat U+0660` for the lower bound |
| C74 | the fuzz targets as programs over the heap model, Client.v (data aligned, little endian; a failed assert is `Fail SIGABRT`) | Hoare triples of the library calls (HeapApi) for strings in blocks of the program, composed; witnesses by computation |
| C75 | the examples: fgets, the chopping of the line, the call, the calls of printf, free | the triples of the calls and the delivery lemmas of the API; the chopped line by induction |
| C76 | Lookup, SpecWire | the shape of results (C07) against the wire form; injectivity of the wire form; no upper case (C44) |
| C77 | Lookup, Register, SpecRegGap | exactness of both functions (C58, C66); the label is determined by its A-label |
| C78 | Heap (allocators that see how much is in use), SpecRoom | each function under the allocator and under one that never fails take the same steps; then the exactness theorems of C46 |
| C79 | Lookup, SpecHost | from C58's exact description of what is accepted: status of the ASCII characters by computation, the characters of a Punycode string from RFC 3492 |
| C80 | Heap, Thread, SpecThread | every function of Heap is a tree of memory operations (by construction, C80_code); simulation between the interleaved run and one heap of its own per thread; results from C46 |
| C81 | Compat | token substitution and the grammar of C as a relation (with a proof that it is unambiguous); the defaults are inert by C17, C18 |
| C82 | Width: lookup and the array functions with sizes modulo 2^W | exact description of the names that wrap; growth per UTF-8 byte from the rows by computation; the witness by induction over its repetitions |
| C83 | canonical equivalence as the least equivalence closed under decomposing and reordering; NFC of Ucd.v; lookup at `ucd` | NFD is a complete invariant (rearrangements of marks commute with sinking); each row of the decomposition, composition and class tables against the mapping table by computation over search trees (UcdTree); then per character |
| C84 | SpecAlike: variants of characters from the case and compatibility tables of Unicode 14; lookup at `ucd` | each row of the five tables against the mapping table by computation over search trees; closure under replacement because canonical equivalence is a congruence (C83) |
| C85 | lookup without TR46 and registration at `ucd`, against `canon` of SpecCanon | labels of equivalent names are equivalent, since the full stop neither arises nor moves; NFC decides equivalence (C83); the quick check is sound below U+10000 (C41); accepted labels are in NFC |
| C86 | lookup and registration at two databases `uenv` | every function asks the database only about code points of its label; accepted names contain, after mapping, only code points that are not disallowed or are assigned |
| C87 | the recommended fallback (doc/libidn2.texi:381-391) as a client of `to_ascii_8z`, with and without a heap | a refusal with IDN2_DISALLOWED means a disallowed character in the first unconvertible label (C67); labels passing transitional processing pass nontransitional processing up to that test |
| C88 | lookup under the two kinds of flags | label by label from the exact descriptions (C58): every code point that IDNA 2008 permits is valid or a deviation in UTS 46 (table computation), so mapping leaves permitted labels alone; lengths, NFC and dots go through |
| C89 | `hexdump` of src/idn2.c as text (`Hexdump.v`), `process_input`, `main` | numbers as read by an independent reader of digits; a line determines its element, a line with another heading or index 0 ends a dump; induction over the session |
| C90 | lookup twice | C09 gives the labels of the result as fixed points of the first flags (C58); each condition on a label is weaker under the second |
| C91 | subdomains | labelwise: the labels of a result are determined by what they display (C69), displaying is a function (C23); C63 cuts a name at a dot |
| C92 | C text of the Punycode coder | `CLang.v`: part of C11 with its own semantics; `CPuny.v`: the text in it; rules for runs of statements (`CLogic.v`), then loop by loop the text does what `Puny.v` says, so C53, C57 and C67 carry over |
| C93 | C text of the label tests | `CLabel.v`: the text in `CLang.v`; loop by loop (`CBidi.v`, `CContext.v`, `CIdna.v`, `CQuick.v`) it does what `Bidi.v`, `Context.v`, `Idna.v` say, so C33 to C36 and C41 carry over; no statement assigns to an array, so the label stays |
| C94 | C text of the table lookups | `CTables.v`: the text in `CLang.v`, calling bsearch through any function meeting `c11_bsearch`; on sorted intervals such a function finds the one that covers the key (`CSearch.v`), the comparison texts compute the order (`CTablesProofs.v`, `CMap.v`), `CMapData.v` runs the decoder of mapdata; then C37 and C38 |
| C95 | C text of lookup.c around label() | `CLookup.v`: the text in `CLang.v`; invariants of the mapping loops (`CLookupMap.v`, `CLookupTr46.v`), of the name buffer (`CLookupName.v`) and of the label checks (`CLookupCheck.v`); `CLookupTop.v` puts the parts together and meets C58 and C64 |
| C96 | C text of label() | `c_label` in `CLookup.v`; `CLabelFun.v` runs it piece by piece (a lemma for arrays that a callee fills, then head, tail, checks); `CLabelText.v` meets the model and with it C58 and C64, and puts the text in place of label() in C95 |
| C97 | C text of decode.c | `c_to_unicode` and `c_44i_copy` in `CUnicode.v`; `CUnicodeRun.v` runs one label (both branches), then the loop by induction over the labels; `CUnicodeTop.v` meets the model and with it the specifications of the Unicode form and of its refusals |
| C98 | C text of register.c | `c_register_u` and `c_register_a` in `CRegister.v`; `CRegisterRun.v` runs the U-label branch, `CRegisterA.v` the A-label branch with the inner call as a parameter; `CRegisterTop.v` meets the model and with it the specifications of registration and of its refusals |
| C99 | C text of the conversions around lookup | `c_nfc`, `c_lookup_ul`, `c_4i2_size`, `c_4i2`, `c_4z`, `c_4i` in `CWrap.v`; `CWrapRun.v` runs them with the lookup as a parameter, `CWrapTop.v` shows the result is unique, `CWrapMeet.v` meets the rules of acceptance and refusal |
| C100 | C text of the conversions around idn2_to_unicode_8z4z | `c_4z4z`, `c_8z8z`, `c_8zlz`, `c_lzlz` in `CUni.v`; `CUniRun.v` runs them with the calls as parameters, `CUniTop.v` shows the result is unique and meets `unicode_name` and `unicode_refused` |
| C101 | C text of idn2_to_unicode_44i | `c_44i_size`, `c_44i` in `CUni44.v`; `CUni44Run.v` runs them with the call as parameter, `CUni44Top.v` shows the result is unique and meets `unicode_name` and `unicode_refused` |
| C102 | C text of idn2_register_ul | `c_register_ul` in `CRegUl.v`; `CRegUlRun.v` runs it with the calls as parameters, `CRegUlTop.v` shows the result is unique and meets `registers` and `registration_refused` |
| C12-C15 | Lookup | induction over the name; table facts by computation |
| C16-C18 | Lookup | case analysis on flag bits |
| C19-C22,C26,C47,C54 | Api | each function is brought into the form `deliver o m` |
| C23-C25,C27 | Api | induction over labels; witnesses |
| C28-C32,C55 | Register | reduction to label test and Punycode |
| C33,C34 | Bidi, SpecBidi | induction; witnesses for the gaps against RFC 5893 |
| C35,C36 | Context, SpecContext | list induction |
| C37 | Tables, Bsearch | generator and bsearch for every sorted table; shipped table by computation |
| C38 | Gentr46, Tr46Map | packed tables are computed in Coq and validated against the rows by computation |
| C56 | Gentr46, Tr46Map, SpecGen | invariants of reading, merge sort, sharing of mapping bytes, packing; for any rows |
| C62 | Scan, SpecScan | fgets, fields, sscanf, strtok on any text of the format; Recog.v is a proved recognizer, run on the shipped texts |
| C39,C40,C44 | Lookup, SpecTables | list induction; table facts by computation |
| C41 | Idna, SpecNfc | induction; witness for the skipped element |
| C42,C43 | Idna, SpecLabel | one lemma per test |
| C45 | Utf8, SpecUtf8 | arithmetic on bytes |
| C46 | Heap, SpecHeap | weakest-precondition lemmas for each function, for any schedule of failures |
| C48 | Error | case analysis |
| C49 | Version | strverscmp as a lexicographic order |
| C50 | Cli | induction over the inputs; the trace is an event list |

## Deviations found

Each is a theorem with suffix `_refuted` or `_gap`, or an exact statement.

* The Punycode decoder accepts '_' as digit 0 after the last delimiter.  Encoder
  and decoder refuse U+D800..U+DBFF but accept U+DC00..U+DFFF.  A claimed buffer
  of 2^32-1 is unsafe (C04).
* `_isNFC` skips the element after a supplementary code point (C41), so
  registration with IDN2_NFC_INPUT may refuse a label that normalises to a
  valid one (C28).
* The Bidi rule misses RFC 5893 rule 4 and part of rules 3 and 6 (C34).  It is
  applied to labels with right-to-left characters only, not to the other labels
  of a Bidi domain name (C63).
* Empty labels are accepted anywhere in a name (C63).
* With IDN2_USE_STD3_ASCII_RULES the characters that STD3 disallows are dropped
  ("a_b" becomes "ab") instead of the name being refused; without it A-labels
  for disallowed_STD3_mapped characters pass (xn--8rh).  The joiner rules are not
  applied with IDN2_TRANSITIONAL.  The length limit is applied before
  normalisation, which may shorten the name (C65).
* Canonically equivalent names can be told apart (C83): the mapping, which turns
  U+0345 into a letter, comes before the ordering of marks (as UTS #46 has it),
  STD3 drops characters that would have composed, and the length limit comes
  before normalisation.
* Upper case and lower case of a name are looked up alike, but for dotless i and,
  without IDN2_TRANSITIONAL, sharp s and final sigma (C84; as UTS #46 has it).
* The comment at lib/tr46map.h:55 gives 0 for NFC_QC=No; the generator writes 1
  (gentr46map.c:388-391), which is what lib/idna.c:76 expects.
* With TR46 the error code is that of the last label failing the tests, not of
  the first (C64).
* idn2_to_unicode_8z8z and 8zlz leave the output alone on NULL input, unlike
  the other functions (C20).
* idn2_to_ascii_4i writes no terminator (C22); idn2_to_unicode_44i truncates
  silently (C25).
* ToUnicode is neither idempotent nor injective (C27); without the round-trip
  check ToASCII is not idempotent (C10).
* idn2_strerror has no message for IDN2_INVALID_FLAGS, idn2_strerror_name
  misspells IDN2_NO_CODESET (C48).
* `idn2 --debug` shows the input under the heading "output" (C50).
* If free changes errno, running out of memory can be reported as an encoding
  or normalisation error (C46).
* Registration does not test ASCII labels (C31).
* The decoder refuses sample (S) of RFC 3492, a Punycode string for an all-ASCII
  one (C53); test-punycode.c contains it and ignores the failure.
* gentr46map silently loses code points if a range, or two ranges it merges,
  lie across U+0100 or U+10000 (C56); the files of Unicode 14 have no such range.
* gentr46map and gendata read lines into 1024 bytes; the rest of a longer line is
  read as another line, so that a long comment can add a row
  (`C62_long_lines_refuted`).  A range whose end is not a number is read as its
  first code point without complaint (`C62_malformed_refuted`).  The loop in
  `_scan_file` that is to strip line ends looks at the terminator and does
  nothing (harmless: fields are stripped).  The shipped files are not affected.

## Validation

`tools/validate.py` evaluates the model, with the database `ucd`, on the vectors
of the test programs in /repo/tests and compares the results:

| Vectors | Number | Disagreements |
|---|---|---|
| test-lookup.c | 736 | 2 |
| IdnaTest.txt (as test-lookup.c reads it) | 12132 | 0 |
| test-register.c | 47 | 0 |
| test-tounicode.c | 35 | 0 |
| test-punycode.c | 19 | 1 |
| test-glibc.c (the calls with a literal result, two locales) | 36 | 0 |

* The two of test-lookup.c are one string that is not UTF-8, where the model
  says IDN2_ENCODING_ERROR; test-lookup.c lets this pass, since libunistring
  versions differ on it.
* The one of test-punycode.c is sample (S) of RFC 3492, "-> $1.00 <-", which is
  all ASCII and has characters beyond letters, digits and hyphens; puny_decode.c
  refuses its encoding on both grounds, as the model does.  By reading, the real
  test program fails on this vector as well, but it returns 0 whatever the
  number of errors, so nobody is told.

## Testing the theorems

`seeded/mutants.py` lists wrong variants of the model, `tools/mutate.py` builds
each in a scratch copy and records in `seeded/LOG.jsonl` which theorems fail.
