#!/usr/bin/env python3
"""Writes /verif/properties.jsonl.  One entry per semantic property."""
import json
P = []
def p(title, statement, quantifier, why, anchors):
    P.append(dict(id="C%02d" % (len(P)+1), title=title, statement=statement,
                  quantifier=quantifier, why_tests_cant=why, anchors=anchors))

p("Punycode encode then decode returns the original label",
  "If the Punycode encoder succeeds on a label, and every ASCII character of the label is a letter, digit, '-' or '_' and the label has a non-ASCII code point, then the decoder run on the encoder's output with a large enough buffer returns exactly the label. For labels of up to 100 code points this is unconditional; for longer ones the only other possible outcome is IDN2_PUNYCODE_OVERFLOW.",
  "every sequence of code points of any length, every output buffer size",
  "Infinitely many labels; the delta/bias state machine interacts with 32-bit overflow checks in ways sampling cannot cover.",
  ["lib/puny_encode.c:_idn2_punycode_encode_internal", "lib/puny_decode.c:_idn2_punycode_decode_internal"])
p("Punycode decode then encode returns the canonical form of the input",
  "If the decoder succeeds on a string, encoding the result (given enough room) yields the same string with the digits after the last '-' lower-cased and '_' read as 'a'. Hence two strings decoding to the same label differ only in that way: no two essentially different A-labels name the same U-label.",
  "every byte string and every buffer size", "Injectivity is a statement about all pairs of strings.",
  ["lib/puny_encode.c:_idn2_punycode_encode_internal", "lib/puny_decode.c:_idn2_punycode_decode_internal", "lib/puny_decode.c:decode_digit"])
p("Punycode encoder is memory safe and terminates",
  "For every input array and every claimed output size not larger than the real buffer, the encoder terminates, never writes outside the buffer, never divides by zero, and on success reports a length within the buffer.",
  "every input sequence, every buffer size", "Out-of-bounds writes may need specific length/overflow coincidences.",
  ["lib/puny_encode.c:_idn2_punycode_encode_internal", "lib/puny_encode.c:adapt"])
p("Punycode decoder is memory safe and terminates",
  "For every input string and every claimed output size not larger than the real buffer and below 2^32-1, the decoder terminates, never reads or writes out of bounds and never divides by zero; on success the length is within the buffer and smaller than the input length +1.",
  "every input string, every buffer size", "Adversarial A-labels drive the insertion index and overflow checks.",
  ["lib/puny_decode.c:_idn2_punycode_decode_internal", "lib/puny_decode.c:adapt"])
p("Decoded labels contain only permitted code points",
  "A successfully decoded label is non-empty, has at least one non-ASCII code point, its ASCII characters are letters, digits, '-' or '_' (never '.' or NUL), and every code point is <= 0x10FFFF and not a high surrogate.",
  "every input string", "A single bad code point (dot, NUL, out of range) would break host-name structure; must hold for all inputs.",
  ["lib/puny_decode.c:_idn2_punycode_decode_internal"])
p("Encoder output is ASCII of the documented shape and errors are exactly classified",
  "Encoder success means: output is the ASCII characters in order, then '-' if there were any, then only lower-case letters and digits. It returns BAD_INPUT only if some code point is > 0x10FFFF or a high surrogate, and never succeeds on such an input.",
  "every input sequence, every buffer size", "Quantifies over all labels.",
  ["lib/puny_encode.c:_idn2_punycode_encode_internal"])
p("Lookup result is a well-formed DNS name",
  "Whenever idn2_lookup_u8 succeeds with an output, the output consists of non-NUL ASCII bytes only, each dot-separated label is at most 63 bytes, and the total is at most 253 bytes, or 254 when it ends with a dot.",
  "every NUL-terminated input, every flag word, every Unicode property database", "Length limits must hold for every combination of labels.",
  ["lib/lookup.c:idn2_lookup_u8", "lib/lookup.c:label", "lib/lookup.c:_tr46"])
p("Lookup has no undefined behaviour",
  "idn2_lookup_u8 always terminates and never reads or writes outside its fixed-size buffers (63-byte label buffer, 256-byte name buffer, 63-entry code point buffers, the heap buffer sized by the first TR46 pass) for any input.",
  "every NUL-terminated input, every flag word", "Memory safety for all inputs.",
  ["lib/lookup.c:idn2_lookup_u8", "lib/lookup.c:label", "lib/lookup.c:_tr46"])
p("ToASCII is idempotent",
  "Applying idn2_to_ascii_8z to its own successful output with the same flags succeeds and returns the same string (documented: applying ToASCII multiple times has the effect of applying it once), unless IDN2_NO_ALABEL_ROUNDTRIP is given.",
  "every input name, every flag word without IDN2_NO_ALABEL_ROUNDTRIP, every Unicode database whose NFC leaves ASCII alone",
  "Two-run relational property over all names.", ["lib/lookup.c:idn2_lookup_u8", "lib/lookup.c:idn2_to_ascii_8z"])
p("Without the round-trip check ToASCII is not idempotent",
  "With IDN2_NO_ALABEL_ROUNDTRIP there is a name that idn2_to_ascii_8z converts successfully but whose result it then rejects.",
  "existential (refutation of C09 for that flag)", "Finding the witness needs reasoning about which outputs are decodable.",
  ["lib/lookup.c:label", "lib/puny_decode.c:basic"])
p("ToUnicode inverts ToASCII",
  "If idn2_to_ascii_8z succeeds with round-trip checking on, then idn2_to_unicode_8z4z succeeds on its output (provided no label starts with an upper-case XN-- prefix, possible only with IDN2_NO_TR46) and returns the Unicode form of the mapped and normalised name; converting that back to ASCII returns the same output, for nontransitional processing and names without disallowed_STD3_mapped code points (or with IDN2_USE_STD3_ASCII_RULES or IDN2_NO_TR46). With IDN2_TRANSITIONAL, or for 'xn--8rh' (U+2474), the way back gives a different name.",
  "every input name and flag word", "Round trip over all names.",
  ["lib/lookup.c:idn2_to_ascii_8z", "lib/decode.c:idn2_to_unicode_8z4z"])
p("ASCII names pass unchanged when TR46 is off",
  "With IDN2_NO_TR46 an all-ASCII name without an 'xn--' label is returned unchanged when every label is at most 63 bytes and the total at most 253 (254 with trailing dot); otherwise IDN2_TOO_BIG_LABEL or IDN2_TOO_BIG_DOMAIN is returned; nothing else happens.",
  "every ASCII name", "All names, all label partitions.", ["lib/lookup.c:label", "lib/lookup.c:idn2_lookup_u8"])
p("ASCII names are only lower-cased under TR46",
  "With TR46 on and without STD3 rules, if an ASCII name is accepted, the result is the input with A-Z lower-cased and nothing else changed. (The documentation's claim that ToASCII never alters ASCII input is refuted for upper-case input.)",
  "every ASCII name and every TR46 flag word", "All names.", ["lib/lookup.c:_tr46", "lib/lookup.c:idn2_lookup_u8", "lib/IdnaMappingTable.txt"])
p("Lookup under TR46 ignores ASCII case",
  "Two inputs that differ only in the case of ASCII letters give the same result and return code when TR46 processing is on.",
  "every pair of inputs, every TR46 flag word", "Relational over all pairs.", ["lib/lookup.c:_tr46"])
p("Alternative full stops and ignored code points",
  "Under TR46, replacing '.' by U+3002, U+FF0E or U+FF61 anywhere, or inserting TR46 'ignored' code points (e.g. soft hyphen) anywhere, does not change the result.",
  "every name, every position", "Relational over all names and positions.", ["lib/lookup.c:_tr46", "lib/IdnaMappingTable.txt"])
p("Contradictory flags are rejected",
  "idn2_lookup_u8 on a non-NULL name returns IDN2_INVALID_FLAGS exactly when transitional and non-transitional are both set, or either together with NO_TR46, or both round-trip flags are set; in that case the name is not examined.",
  "every flag word (all bits), every input", "2^32 flag words times all inputs.", ["lib/lookup.c:set_default_flags", "lib/lookup.c:idn2_lookup_u8"])
p("Default and inert flags",
  "IDN2_NONTRANSITIONAL is the default (adding it to a flag word with no TR46 flag changes nothing); IDN2_ALABEL_ROUNDTRIP is the default; IDN2_ALLOW_UNASSIGNED never matters; IDN2_USE_STD3_ASCII_RULES never matters with NO_TR46.",
  "every input, every flag word", "Relational over all inputs and flag words.", ["lib/lookup.c:set_default_flags", "lib/idn2.h.in:idn2_flags"])
p("TR46 modes imply NFC input",
  "With TR46 processing on, adding or removing IDN2_NFC_INPUT never changes the result or the return code.",
  "every input, every flag word", "Relational; documented but never tested in general.", ["lib/lookup.c:idn2_lookup_u8", "lib/idna.c:_idn2_u8_to_u32_nfc"])
p("NULL arguments",
  "A NULL input makes every lookup/to_ascii function return IDN2_OK with a NULL output and no other effect; a NULL output pointer gives the same return code as a non-NULL one.",
  "every function, flag word and input", "All inputs.", ["lib/lookup.c", "lib/decode.c", "lib/register.c"])
p("NULL input to idn2_to_unicode_8z8z leaves the output untouched",
  "Unlike its siblings, idn2_to_unicode_8z8z/8zlz with a NULL input returns IDN2_OK without storing to *output.",
  "existential deviation, proved for every flag word", "Tests that pre-initialise the variable cannot see it.", ["lib/decode.c:idn2_to_unicode_8z8z", "lib/decode.c:idn2_to_unicode_8zlz"])
p("The ToASCII entry points agree",
  "idn2_to_ascii_8z, _4z, _4i2 and idn2_lookup_u8 return the same result on representations of the same name; idn2_to_ascii_lz and idn2_lookup_ul return that of idn2_lookup_u8 on the converted name with IDN2_NFC_INPUT added, which is the same result under TR46; unencodable code points give IDN2_ENCODING_ERROR, an unconvertible name IDN2_ICONV_FAIL.",
  "every name in every representation", "Relational over all names.", ["lib/lookup.c:idn2_to_ascii_4z", "lib/lookup.c:idn2_to_ascii_4i2", "lib/lookup.c:idn2_to_ascii_lz"])
p("idn2_to_ascii_4i writes at most 63 bytes and no terminator",
  "idn2_to_ascii_4i succeeds exactly when idn2_to_ascii_4i2 succeeds with at most 63 bytes, writes exactly those bytes, and does not write the terminating NUL its documentation promises.",
  "every input", "The missing terminator is invisible if the buffer was zeroed.", ["lib/lookup.c:idn2_to_ascii_4i"])
p("Labels are processed independently and dots are preserved by ToUnicode",
  "When idn2_to_unicode_8z4z succeeds, splitting the result on '.' gives exactly the label-wise conversion of the input split on '.': ACE labels are Punycode-decoded, all others are returned unaltered (as code points), with the same number of labels.",
  "every NUL-terminated input", "All names.", ["lib/decode.c:idn2_to_unicode_8z4z"])
p("ToUnicode is memory safe and bounded",
  "idn2_to_unicode_8z4z always terminates, never writes outside its 256-entry and 63-entry arrays, and a successful result has at most 255 code points.",
  "every input", "Memory safety for all inputs.", ["lib/decode.c:idn2_to_unicode_8z4z"])
p("idn2_to_unicode_44i never writes past the given capacity",
  "idn2_to_unicode_44i copies min(result length, *outlen) code points and always reports the full result length; so on truncation it returns IDN2_OK with a length larger than the capacity.",
  "every input and capacity", "All capacities.", ["lib/decode.c:idn2_to_unicode_44i"])
p("ToUnicode entry points agree",
  "8z4z, 8z8z, 4z4z, 44i return representations of the same result whenever all code points are encodable.",
  "every name", "Relational over all names.", ["lib/decode.c"])
p("ToUnicode is not idempotent and accepts non-canonical A-labels",
  "There is an input whose ToUnicode result is itself rejected by ToUnicode, and there are different lower-case A-labels ('_' vs 'a') with the same ToUnicode result; but a result that is encodable and has no label with an A-label prefix is a fixed point.",
  "existential", "Needs the exact decoder semantics.", ["lib/decode.c:idn2_to_unicode_8z4z", "lib/puny_decode.c:decode_digit"])
p("Register output is a valid label",
  "A successful idn2_register_u8 output is ASCII, at most 63 bytes; if the U-label was not ASCII it starts with 'xn--', decodes to the (normalised) U-label, and that U-label passes every IDNA2008 registration test (NFC, hyphens, combining mark, DISALLOWED, UNASSIGNED, CONTEXTJ/O rules, Bidi).",
  "every U-label, every flag word", "All labels.", ["lib/register.c:idn2_register_u8", "lib/idna.c:_idn2_label_test"])
p("Register with an A-label returns that very A-label and detects mismatches",
  "If an A-label is given and accepted, the output equals it byte for byte; if a U-label is given too, it is exactly the UTF-8 of the decoded A-label, otherwise IDN2_UALABEL_MISMATCH.",
  "every pair of U-label and A-label", "All pairs.", ["lib/register.c:idn2_register_u8"])
p("Register round trip",
  "If registering a non-ASCII U-label alone yields A, then registering A alone, and registering A together with the normalised U-label, both succeed and yield A.",
  "every U-label", "Relational over all labels.", ["lib/register.c:idn2_register_u8"])
p("Register accepts every ASCII U-label up to 63 bytes",
  "An ASCII U-label (without A-label) is returned unchanged iff its length is at most 63, without any of the IDNA2008 tests (so e.g. 'ab--cd' or '-' is accepted).",
  "every ASCII string", "All ASCII strings.", ["lib/register.c:idn2_register_u8"])
p("Register is memory safe",
  "idn2_register_u8 never writes outside its stack buffers and terminates, for all inputs.",
  "every input", "Memory safety for all inputs.", ["lib/register.c:idn2_register_u8"])
p("Bidi check is exactly rules 1,2,5 of RFC 5893 plus a weakened end rule",
  "The Bidi test accepts a label iff it has no R/AL/AN character or its first character is L, R or AL, all others are in the direction's allowed set, and the last one is in the direction's allowed end set or NSM.",
  "every label, every assignment of Bidi classes", "All labels.", ["lib/bidi.c:_idn2_bidi"])
p("Bidi check misses RFC 5893 rule 4 and part of rules 3/6",
  "Labels mixing EN and AN, and labels whose end is NSM after a neutral character, are accepted although RFC 5893 forbids them.",
  "existential", "Needs comparing against the RFC's rule set.", ["lib/bidi.c:_idn2_bidi"])
p("CONTEXTJ rules are exactly RFC 5892 A.1 and A.2",
  "The per-position check accepts ZWNJ iff it follows a Virama or matches (L|D) T* ZWNJ T* (R|D); accepts ZWJ iff it follows a Virama; every other code point is accepted; no out-of-bounds access.",
  "every label, position and joining/combining data", "All labels and positions.", ["lib/context.c:_idn2_contextj_rule"])
p("CONTEXTO rules are exactly RFC 5892 A.3-A.9",
  "The per-position check accepts each CONTEXTO code point iff its RFC 5892 rule holds; every CONTEXTO code point of the shipped table has a rule, so IDN2_CONTEXTO_NO_RULE and IDN2_CONTEXTJ_NO_RULE are never returned.",
  "every label and position", "All labels and positions.", ["lib/context.c:_idn2_contexto_rule", "lib/context.c:_idn2_contexto_with_rule"])
p("IDNA property lookup matches the IANA table",
  "For every code point, the binary search in the generated table returns the property listed in idna-tables-properties.csv, UNASSIGNED if listed so or not listed.",
  "all 2^32 code point values", "4 billion values; correctness of table generation plus search.", ["lib/tables.c:property", "lib/gendata.c:main", "lib/idna-tables-properties.csv"])
p("TR46 lookup matches IdnaMappingTable.txt",
  "For every code point, status and mapping obtained from the generated compressed byte tables are those of IdnaMappingTable.txt.",
  "all code points 0..10FFFF; the generator theorem ranges over all well-formed tables", "Compression (merging, deduplicated mapping stream, bit packing, three-way split) must be lossless for every code point.",
  ["lib/gentr46map.c", "lib/tr46map.c:get_idna_map", "lib/tr46map.c:get_map_data", "lib/IdnaMappingTable.txt"])
p("TR46 preprocessing implements the UTS46 mapping step",
  "The mapped string is the concatenation over the input code points of: itself if valid (or deviation in non-transitional mode, or STD3-disallowed-valid without STD3), its mapping if mapped (or deviation in transitional mode, or STD3-mapped without STD3), nothing if ignored; an input with a disallowed code point is rejected with IDN2_DISALLOWED. With STD3 rules on, STD3-disallowed code points are silently dropped.",
  "every input name", "All names; two passes must agree on lengths.", ["lib/lookup.c:_tr46"])
p("TR46 mapping is stable",
  "Mapping an already mapped string again changes nothing (for the shipped table).",
  "every string", "All strings over 1.1M code points.", ["lib/IdnaMappingTable.txt", "lib/lookup.c:_tr46"])
p("NFC quick check",
  "With IDN2_NFC_INPUT the label is NFC-normalised before testing, for labels without supplementary code points; with supplementary code points the quick check skips the following code point, so un-normalised input can get IDN2_NOT_NFC instead of being normalised.",
  "every label, every normalisation data", "All labels.", ["lib/idna.c:_isNFC", "lib/idna.c:_idn2_u8_to_u32_nfc"])
p("The label test is sound, complete and reports the first failing test",
  "_idn2_label_test returns IDN2_OK iff every selected test holds of the label, and otherwise the error code of the first failing test in the documented order.",
  "every label, every test selection", "All labels and selections.", ["lib/idna.c:_idn2_label_test"])
p("Accepted lookups satisfy IDNA2008 lookup tests",
  "If lookup succeeds (non-transitional or NO_TR46), each output label beginning with xn-- (round-trip on) decodes to a label that is NFC, has no '--' in 3rd/4th position, no leading mark, no DISALLOWED/UNASSIGNED code point (STD3 exceptions aside), satisfies CONTEXTJ and Bidi tests.",
  "every name", "All names.", ["lib/lookup.c:label", "lib/idna.c:_idn2_label_test"])
p("TR46 lookup output has no upper-case ASCII",
  "With TR46 and round-trip checking on, a successful lookup result contains no byte A-Z.",
  "every name", "All names.", ["lib/lookup.c:_tr46", "lib/lookup.c:label"])
p("UTF-8 conversion is a partial bijection",
  "The UTF-8/UTF-32 conversions used throughout are inverse to each other and reject overlong forms, surrogates and values above 10FFFF.",
  "every byte string and code point string", "All strings.", ["lib/decode.c:u8_to_u32", "lib/lookup.c:u32_to_u8"])
p("Allocation failures",
  "Under every schedule of allocation failures, each API function frees every block it allocated exactly once, except the one result it hands out, and never touches freed memory; it returns what it returns without failures, or, after an allocation has failed, IDN2_MALLOC with the output untouched. The promise about the code needs a free that keeps errno (as POSIX.1-2024 asks); without it a failed allocation can be reported as an encoding error.",
  "every input and every failure schedule", "All failure points of all inputs.", ["lib/lookup.c", "lib/decode.c", "lib/register.c", "lib/idna.c"])
p("Failure leaves the output alone",
  "When an API function returns an error it does not store to the output pointer.",
  "every input", "All inputs.", ["lib/lookup.c", "lib/decode.c", "lib/register.c"])
p("Error strings",
  "idn2_strerror_name gives every code the name it has in idn2.h and IDN2_UNKNOWN to every other value; idn2_strerror gives every code its own message about the matter the header describes, so that every failure of a conversion with sensible flags is explained. Refuted for IDN2_NO_CODESET (wrong name) and IDN2_INVALID_FLAGS (no message).",
  "all int values", "2^32 values.", ["lib/error.c:idn2_strerror", "lib/error.c:idn2_strerror_name"])
p("Version check",
  "For releases such as 2.3.2, idn2_check_version returns the library version iff the requested one is not newer, number by number; NULL asks for no check. On arbitrary strings the comparison is a total order, so a newer library passes every check that an older one passes.",
  "all version strings", "All strings.", ["lib/version.c:idn2_check_version"])
p("Command line tool",
  "The idn2 tool prints one line per input in order, stopping at the first refused input with a failure status and a message that names the problem; the flag word is the one the options ask for and never contradictory; lines on standard input are treated like arguments. (Refuted: --debug shows the output.)",
  "all option combinations and input lists", "All inputs.", ["src/idn2.c:main", "src/idn2.c:process_input"])
p("The Punycode decoder implements RFC 3492",
  "Whenever the decoder succeeds on a string with no '_' after its last '-', the result is the one RFC 3492 (sections 5, 6.1, 6.2, in unbounded integers) assigns to that string.",
  "every byte string and buffer size", "All strings; a consistent parameter error in both directions survives round-trip tests.", ["lib/puny_decode.c:_idn2_punycode_decode_internal"])
p("Error codes of lookup",
  "When idn2_lookup_u8 fails, the code is IDN2_INVALID_FLAGS for contradictory flags and otherwise one of eighteen codes about the name; never a registration code, a CONTEXTO code or IDN2_DOT_IN_LABEL (allocation failures apart).",
  "every name and flag word", "Absence of a code over all inputs.", ["lib/lookup.c:idn2_lookup_u8", "lib/lookup.c:label", "lib/lookup.c:_tr46"])
p("The Punycode decoder accepts exactly the RFC 3492 strings over its alphabet",
  "With an output limit of at most 109 code points (the callers use 63, 59 and so on), the decoder succeeds with result L exactly when the string consists of letters, digits, '-' and '_', RFC 3492 assigns L to it after reading '_' as 'a', every code point of L is permitted, at least one is not ASCII, and L fits.",
  "every byte string and limit", "Completeness: no valid string is rejected, none outside is accepted.", ["lib/puny_decode.c:_idn2_punycode_decode_internal"])
p("No entry point reads an uninitialised pointer",
  "The results of idn2_to_ascii_4i2 and of the idn2_to_unicode functions do not depend on what their local pointer variables held at entry.",
  "every input, output, flag word and initial contents of the locals", "An uninitialised read usually goes unnoticed.", ["lib/lookup.c:idn2_to_ascii_4i2", "lib/decode.c"])
p("What can be registered can be looked up",
  "If every label of a name may be registered (together with its A-label, or as a lower-case letter-digit-hyphen label passing the tests), the lookup of the name succeeds with any valid non-transitional flags, and its result is exactly the registered A-labels joined by dots; with transitional processing this fails (sharp s).",
  "every name, Unicode database and flag word", "Two code paths with different tests and two data tables must agree on all code points.", ["lib/register.c:idn2_register_u8", "lib/lookup.c:idn2_lookup_u8", "lib/tables.c", "lib/tr46map.c"])
p("The TR46 table generator is right for every data file",
  "If gentr46map accepts IdnaMappingTable.txt and DerivedNormalizationProps.txt without a diagnostic, the lookup functions on the tables it writes report, for every code point listed, exactly the listed status and mapping, for every other code point none, and the listed quick-check value; provided no range crosses U+0100 or U+10000 and no two equal unmapped ranges meet there. (Refuted without the proviso: such code points are silently lost.)",
  "all data files and code points", "The test-suite sees one version of the data only; the generator runs again for each new Unicode version.", ["lib/gentr46map.c", "lib/tr46map.c:get_idna_map", "lib/tr46map.c:get_map_data", "lib/tr46map.c:get_nfcqc_map"])
p("The Punycode encoder computes exactly RFC 3492",
  "With an output limit of at most 109 bytes (the caller uses 59), the encoder succeeds with result s exactly when every code point is permitted (at most 10FFFF, no high surrogate), s is the RFC 3492 encoding (the ASCII characters whatever they are, delimiter, lower-case digits which the RFC's decoder reads back as the label) and s fits; there is at most one such s.",
  "every code point list and limit", "Both directions over all labels, including ASCII characters that never pass the callers' tests.", ["lib/puny_encode.c:_idn2_punycode_encode_internal"])
p("Lookup accepts exactly the names the specification admits",
  "idn2_lookup_u8 returns IDN2_OK with result r exactly when the flags are not contradictory and r is the ToASCII result of the name: mapping and normalisation by UTS #46 (or per label without TR46), validity criteria of UTS #46, the label tests of RFC 5891/5892/5893, RFC 3492 encoding, treatment of A-labels, and the size limits; all other names are refused.",
  "every name, flag word and Unicode database", "Soundness and completeness at once: no valid name is refused, no other accepted, for all names and all flag words.", ["lib/lookup.c:idn2_lookup_u8", "lib/lookup.c:label", "lib/lookup.c:_tr46", "lib/idna.c"])
p("Switching the A-label check off only accepts more",
  "A name accepted with the round-trip check of A-labels is also accepted with IDN2_NO_ALABEL_ROUNDTRIP and otherwise equal flags, with the same result up to ASCII letter case.",
  "every name and flag word", "Compares two modes on all names.", ["lib/lookup.c:idn2_lookup_u8", "lib/lookup.c:label", "lib/lookup.c:_tr46"])
p("Transitional processing changes a result only for deviation characters",
  "If neither the name nor its mapped and normalised form contains a deviation character and the name is accepted non-transitionally, transitional processing accepts it with the same result. The converse holds if the labels, with A-labels decoded, pass the tests of RFC 5891, and fails without (U+2615), since transitional processing leaves these tests out; with a deviation character the results differ (U+00DF).",
  "every name and flag word", "Compares two modes on all names.", ["lib/lookup.c:_tr46", "lib/idna.c:_idn2_label_test"])
p("STD3 rules only matter for characters they concern",
  "If no character of the name is one that UTS #46 treats specially under STD3 and the name is accepted with IDN2_USE_STD3_ASCII_RULES, it is accepted without, with the same result. The converse holds if neither the mapped and normalised name nor a label that an A-label in it stands for has such a character, and fails otherwise (xn--1ch, which stands for U+2260).",
  "every name and flag word", "Compares two modes on all names.", ["lib/lookup.c:_tr46", "lib/idna.c:_idn2_label_test"])
p("The table generators read exactly what the Unicode data files say",
  "For every file in the format of UAX #44 (code point or range, fields separated by semicolons, blanks around them, comments, blank lines, LF or CR LF, hexadecimal digits of either case, last newline optional) whose lines have at most 1022 bytes, gentr46map reads exactly the rows the file states, in order, with range, status and mapping, and from DerivedNormalizationProps.txt exactly the NFC_QC rows; gendata reads exactly the rows of the CSV file except UNASSIGNED. Together with C56 the tables answer for every code point what the text says. The three files of the distribution are in the format.",
  "all files of the format, all code points",
  "Builds only ever run the generators on the shipped files; a Unicode update with other spacing, case or line ends would show a scanning bug only as wrong answers for some code points.",
  ["lib/gentr46map.c:67-131", "lib/gentr46map.c:233-405", "lib/gendata.c:53-95", "lib/IdnaMappingTable.txt", "lib/DerivedNormalizationProps.txt", "lib/idna-tables-properties.csv"])

p("Lookup treats the labels of a name one by one",
  "For all names a and b and all flags, the lookup of a.b succeeds exactly when the lookups of a and of b succeed and the length limits hold for the whole, and its result is then the two results joined by a dot; in particular the full stop of an absolute name is kept. (Consequences, shown as refutations: the Bidi rule is not applied to the other labels of a Bidi domain name, and empty labels pass.)",
  "every pair of names, flag word and Unicode database", "Quantifies over all pairs of names; TR46 maps and normalises the whole name at once.", ["lib/lookup.c:idn2_lookup_u8", "lib/lookup.c:_tr46", "lib/bidi.c:_idn2_bidi"])
p("Every refusal of lookup is explained by its code",
  "When idn2_lookup_u8 returns an error, the code names a condition that the name really violates, the first one in a fixed order of steps (flags, UTF-8, disallowed code points, length after mapping, normalisation, the UTS #46 tests, then per label length, RFC 5891 tests, encoding, A-label round trip, total length); conversely a name that violates such a condition is refused with that code (for names of more than 10^9 bytes without TR46, up to which of two codes for lack of room is reported). Every name is either accepted or refused, never both. Without TR46 the first bad label decides; with TR46 the tests go on, so the code is that of the last label failing them, unless an A-label cannot be decoded, which ends them at once (refuted: the code is that of the first bad label).",
  "every name, flag word and Unicode database", "Tests compare a few codes; whether a code can be reported for a name that does not have the fault, or a fault be reported under another code, is a question about all names.", ["lib/lookup.c:idn2_lookup_u8", "lib/lookup.c:label", "lib/lookup.c:_tr46", "lib/idna.c:_idn2_label_test", "lib/idn2.h.in:idn2_rc"])
p("Lookup agrees with ToASCII of UTS #46 under stated conditions",
  "With TR46 and the A-label round trip on, every result of idn2_lookup_u8 is a result of ToASCII of UTS #46 for the same name (CheckHyphens, CheckJoiners unless transitional, without CheckBidi), provided the name has no characters that STD3 disallows when the STD3 flag is set, and no A-label of the result stands for a disallowed_STD3_mapped character when it is not; under VerifyDnsLength too if no label is empty. Conversely, nontransitionally, every result of UTS #46 with CheckBidi and VerifyDnsLength is what lookup returns, provided the non-ASCII labels consist of characters IDNA2008 has not disallowed or unassigned (and LDH or underscore) and the mapped name is shorter than 255 characters. Without each condition the claim fails, with witnesses.",
  "every name, flag word and Unicode database satisfying the normalisation laws", "Conformance files list finitely many names; the differences to the standard only show for names nobody put on the list.", ["lib/lookup.c:idn2_lookup_u8", "lib/lookup.c:_tr46", "lib/lookup.c:label", "lib/idna.c:_idn2_label_test", "lib/puny_encode.c", "lib/puny_decode.c"])
p("Every registration is accepted or refused for the stated reason",
  "For every U-label, A-label (either may be absent, not both), flag word and Unicode database, idn2_register_u8 returns a label exactly when the request satisfies the registration rules (ASCII of at most 63 bytes; or a non-ASCII U-label whose normal form passes the RFC 5891 registration tests and whose Punycode fits; or an A-label in canonical spelling of such a label, matching the U-label if given) and the label is the one these rules determine; otherwise the error code names the first condition violated in a fixed order, and a request violating it is refused with that code (for U-labels of more than 10^9 bytes, up to which of two codes for lack of room is reported).",
  "every pair of labels, flag word and Unicode database", "Quantifies over all labels; a wrong code or a wrongly accepted A-label spelling shows only for labels nobody listed.", ["lib/register.c:idn2_register_u8", "lib/idna.c:_idn2_label_test", "lib/puny_encode.c", "lib/puny_decode.c", "lib/idn2.h.in:idn2_rc"])
p("Every error of the Punycode coder is the one the input calls for",
  "The decoder reports PUNYCODE_BAD_INPUT, PUNYCODE_OVERFLOW and PUNYCODE_BIG_OUTPUT exactly when, reading the string as RFC 3492 section 6.2 prescribes, the first thing to go wrong is respectively a malformed string (empty, a character other than letter, digit, hyphen, underscore, nothing before or after the last hyphen, an unfinished integer, a code point that is a high surrogate or above 10FFFF), an integer or a code point beyond 32 bits, or a code point for which there is no room. The encoder reports PUNYCODE_BAD_INPUT exactly when the first obstacle is such a code point, PUNYCODE_BIG_OUTPUT exactly when the encoding of RFC 3492 does not fit, and never PUNYCODE_OVERFLOW for labels of up to 4172415000 code points. Each input has a result or exactly one of these reasons.",
  "every byte string, every code point string, every buffer size (encoder: up to 109 bytes)", "The codes depend on 32-bit arithmetic over strings of any length; tests reach a few of the failing positions.", ["lib/puny_decode.c:_idn2_punycode_decode_internal", "lib/puny_encode.c:_idn2_punycode_encode_internal"])
p("Every refusal of ToUnicode is explained by its code",
  "When idn2_to_unicode_8z4z, 8z8z, 4z4z or 44i returns an error, going through the labels from the left the first thing to go wrong is: an A-label (xn-- in any case) that the Punycode decoder refuses, with the decoder's code; a label that is not UTF-8 (ENCODING_ERROR); a label of more than 63 code points (TOO_BIG_LABEL); or the result, with the full stop that follows the label, exceeding 255 code points (TOO_BIG_DOMAIN). 4z4z and 44i in addition report ENCODING_ERROR for input that is not Unicode, 8z8z for a result that has no UTF-8 form. Conversely a name with such a fault is refused with that code; every name has a result or exactly one code.",
  "every name, flag word, output cell and buffer size", "Which of several faults is reported, and that none is overlooked, is a question about all names.", ["lib/decode.c:idn2_to_unicode_8z4z", "lib/decode.c:idn2_to_unicode_8z8z", "lib/decode.c:idn2_to_unicode_4z4z", "lib/decode.c:idn2_to_unicode_44i"])
p("Two names are the same DNS name exactly when they have the same Unicode form",
  "With TR46 and the A-label round trip on, two accepted names (under whatever flags otherwise) have the same lookup result exactly when, after mapping and normalisation, ToUnicode makes the same string of them; so a U-label and its A-label in any case are one name, and results that are displayed alike are equal, also across versions of the Unicode data. Without the round trip (xn--td_ and xn--tda), or without TR46 for A-labels in upper case, this fails, with witnesses.",
  "every pair of names, flag words and Unicode databases", "Quantifies over all pairs of names; a clash or a split identity shows only for pairs nobody compared.", ["lib/lookup.c:idn2_lookup_u8", "lib/lookup.c:label", "lib/decode.c:idn2_to_unicode_8z4z"])
p("Without TR46, IDN2_NFC_INPUT only matters for names that are not normalised",
  "Without TR46, a name is accepted without IDN2_NFC_INPUT, with result r, exactly when it is accepted with the flag, with the same r, and every non-ASCII label, and the decoding of every A-label that is checked, is in Normalization Form C. In particular the flag never changes or loses a result.",
  "every name, pair of flag words differing in the flag, and Unicode database", "The quick check of the library may be wrong about a string (it is, see C41); that this never shows in a result is a statement about all names.", ["lib/lookup.c:label", "lib/idna.c:_idn2_u8_to_u32_nfc", "lib/idna.c:_isNFC", "lib/idna.c:_idn2_label_test"])
p("ToUnicode agrees with ToUnicode of UTS #46 on mapped names",
  "Whenever ToUnicode of UTS #46, under any parameters, processes a name without recording an error, idn2_to_unicode_8z4z makes the same of the mapped and normalised name, provided the labels decoded from A-labels have no ASCII characters but letters, digits, hyphen and underscore, labels of the result have at most 63 and the whole at most 255 code points. The library does not map (U+00DC stays upper case) and does not check validity (U+FFFD and its A-label pass), with witnesses.",
  "every name, Unicode database and choice of the parameters of UTS #46", "Test vectors compare finitely many names with the standard.", ["lib/decode.c:idn2_to_unicode_8z4z", "lib/puny_decode.c:_idn2_punycode_decode_internal"])
p("The generated C files declare the tables that were computed",
  "Whatever the data files, the text that gentr46map prints, read as C, declares exactly the arrays it has computed: every declared size is the number of elements, every element fits its type, and the comments, includes and punctuation are well-formed; it is printed whenever the tables can be built from files in the format, without integer overflow in the sizes. The text that gendata prints for a CSV file in the format declares the rows that are not UNASSIGNED, in order, and their number. For the files of the distribution, data.c is the table the library searches and tr46map_data.c answers for every code point as the data files do. (gendata prints what does not compile without complaint, with a witness.)",
  "all texts of the data files", "The build compiles one pair of generated files; that no other data file can make the generator print a wrong size, number or separator is a statement about all data files.", ["lib/gendata.c:main", "lib/gentr46map.c:main", "lib/gentr46map.c:_print_tr46_map", "lib/data.h:idna_table", "lib/tr46map.h:NFCQCMap"])
p("The running time of lookup and ToUnicode is linear in the length of the name",
  "Counting loop iterations (those of the library, of its binary searches, of the memory and string functions it calls and of the UTF-8 conversions, but not the inside of u32_normalize), idn2_lookup_u8 and idn2_to_unicode_8z4z take at most a constant times the length of the name plus a constant, whatever the name and the flags: no name makes them run long. idn2_register_u8 with an A-label takes constant time behind the strlen of the A-label; with a U-label alone its time is quadratic in the length of the label, and (refuted) not linear: the CONTEXTO rules look through the whole label for every Arabic-Indic digit, before any length is checked.",
  "every name, label, flag word and Unicode database in which ZWNJ is not of joining type T and NFC at most quadruples a string", "Measurements on some names do not exclude a name on which the work grows faster than its length.", ["lib/lookup.c:idn2_lookup_u8", "lib/lookup.c:_tr46", "lib/lookup.c:label", "lib/decode.c:idn2_to_unicode_8z4z", "lib/register.c:idn2_register_u8", "lib/idna.c:_idn2_label_test", "lib/context.c:_idn2_contextj_rule", "lib/context.c:_idn2_contexto_rule", "lib/puny_encode.c", "lib/puny_decode.c", "lib/tr46map.c", "lib/tables.c"])
p("The fuzz targets cannot crash or leak, whatever they are fed",
  "The three fuzz targets (registration, ToASCII, ToUnicode), run on any byte string by any allocator, end with status 0 having freed everything they and the library have allocated, without a double free, a use after free or other undefined behaviour, or are stopped by their own assert after an allocation has failed. The one exception (refuted): the ToUnicode target on empty input writes through an unchecked malloc. Also, the registration target passes \"xn--\" and its data without the last four bytes, so that these never matter.",
  "every byte string, allocator behaviour, contents of uninitialised memory, locale and Unicode database", "Fuzzing runs these targets on some inputs; that no input makes them fail is what it cannot establish.", ["fuzz/libidn2_register_fuzzer.c:LLVMFuzzerTestOneInput", "fuzz/libidn2_to_ascii_8z_fuzzer.c:LLVMFuzzerTestOneInput", "fuzz/libidn2_to_unicode_8z8z_fuzzer.c:LLVMFuzzerTestOneInput", "lib/free.c:idn2_free", "lib/version.c:idn2_check_version"])
p("The example programs report what the library makes of the first line of input",
  "Each of examples/lookup.c, decode.c, register.c, example-toascii.c and example-tounicode.c, given a first line without NUL that fits its array, prints the result of its library call on that line and returns 0, or prints message (and name) of the error code and returns 1, and frees what the call has allocated, also if an allocation fails. If the line is not ended by a newline its last character is dropped and another name is looked up. If the line does not fit, the same happens to the part of it that does, and if it holds a NUL behind its first character, to the part before that. A line that starts with NUL is undefined behaviour in all five (src[strlen (src) - 1]); so is empty input in the last two.",
  "every input, allocator behaviour, locale, Unicode database and array size", "The examples are the documented way of calling the library; that they handle every line is not settled by running them on some.", ["examples/lookup.c:main", "examples/decode.c:main", "examples/register.c:main", "examples/example-toascii.c:main", "examples/example-tounicode.c:main"])
p("A successful lookup is a name that can be sent to a DNS server",
  "Every result of idn2_lookup_u8 without empty labels has exactly one encoding as a name in a DNS message (RFC 1035: labels of 1 to 63 bytes behind their length, 255 bytes in all); for ASCII names without TR46 the limits are exactly those of the protocol. With TR46, results that a server takes for the same owner name (ignoring ASCII case) differ at most by a final dot; without TR46 they may differ in case. A name with an empty label inside is accepted although it has no encoding (refuted).",
  "all names, all flags, all Unicode data satisfying the laws of NFC", "a test looks up names, not every name of every length, and does not send them", ["lib/lookup.c:idn2_lookup_u8", "lib/lookup.c:label", "lib/idn2.h.in:IDN2_LABEL_MAX_LENGTH", "lib/idn2.h.in:IDN2_DOMAIN_MAX_LENGTH"])
p("What a lookup returns can be registered, but for three named tests",
  "For every A-label in a result of idn2_lookup_u8 (round trip on, not transitional): idn2_register_u8 accepts it as A-label if and only if the Unicode label has no hyphen at either end, obeys the CONTEXTO rules, and has no character that only the missing STD3 option let through. With TR46 and IDN2_USE_STD3_ASCII_RULES only the CONTEXTO rules are left. Without TR46, a non-ASCII U-label is registered with result r if and only if looking it up gives r and the three tests hold. Each test is needed, and transitional results can fail others (witnesses).",
  "all names and labels, all flags, all Unicode data satisfying the laws of NFC", "two entry points over all inputs are compared; tests compare each with a few expected values", ["lib/lookup.c:label", "lib/lookup.c:_tr46", "lib/register.c:idn2_register_u8", "lib/idna.c:_idn2_label_test"])
p("The library gets by with a stated amount of memory",
  "If allocations succeed as long as no more than B cells (bytes or code points) are in use, every function that takes a name does exactly what it does with unlimited memory, and never returns IDN2_MALLOC, whenever B is what is in use before plus a bound: for a lookup of n bytes the larger of n+256 and 85680 with TR46, the larger of 20n and 5292 without; for registration the larger of 20n and 5100; for the others a linear function of n (and of the growth of the locale conversion) with stated constants. No fixed B will do for all names (refuted): a lookup allocates room for the whole name before it looks at its length.",
  "every name, flag word, state of the heap, allocator that is reliable up to B, locale and Unicode database", "Peak memory over all names cannot be measured; a leak or an oversized buffer on a rare path changes it without any test noticing.", ["lib/lookup.c:idn2_lookup_u8", "lib/lookup.c:_tr46", "lib/lookup.c:label", "lib/lookup.c:idn2_to_ascii_4i2", "lib/decode.c:idn2_to_unicode_8z4z", "lib/decode.c:idn2_to_unicode_44i", "lib/register.c:idn2_register_u8", "lib/idna.c:_idn2_u8_to_u32_nfc"])
p("With STD3 rules a lookup returns host names",
  "With TR46 and IDN2_USE_STD3_ASCII_RULES, every label of a result of idn2_lookup_u8 is empty or a host-name label: at most 63 lower-case letters, digits and hyphens, no hyphen at either end, '--' in the third and fourth place only after 'xn' - whatever characters the name had, transitional or not, and with or without the A-label round trip (for the Unicode 14 data; for any other database given a stated fact about NFC). An ASCII name without A-labels is accepted exactly if, lower-cased and freed of all other characters, it is such a name within the size limits. Refuted: that the flag makes names with other characters fail (they are dropped: 'a_b' gives 'ab'); that the claim holds without the flag or without TR46; that no label is empty.",
  "every name, every flag word with TR46 and STD3, every Unicode database with NFC's laws", "The claim is about all characters and what mapping, NFC and Punycode make of them; a single code point that maps to a forbidden ASCII character would break it.", ["lib/lookup.c:_tr46", "lib/lookup.c:label", "lib/lookup.c:idn2_lookup_u8", "lib/idna.c:_idn2_label_test", "lib/puny_encode.c", "lib/puny_decode.c", "lib/tr46map.c"])
p("Calls in several threads do not disturb each other",
  "Any number of threads may be in functions of the library at once, in any interleaving of their memory operations, on one memory whose addresses are reused. No thread ever comes to undefined behaviour, no two are about to use the same block, none uses a block it did not allocate, and every schedule ends with all calls returned. Each call returns what it returns alone, in a new block of its own, or IDN2_MALLOC if its own allocations may fail; allocations that fail in other threads change nothing. When all have returned, memory holds what it held before and the results handed out, whatever free does to errno. The same for loops of call, use and idn2_free.",
  "every number of threads, every function and argument, every schedule, every choice of addresses by the allocator, every pattern of failing allocations", "Races show up in rare interleavings only; no test can run them all.", ["lib/lookup.c", "lib/register.c", "lib/decode.c", "lib/idna.c", "lib/free.c"])
p("Programs written for libidn can use the compatibility macros",
  "idna_to_ascii_4i, _4z, _8z and _lz of idn2.h do what the idn2_ functions do with the flags the program wrote, for every flags argument - any C expression of constants, variables, parentheses and the operators ~ & ^ | && || ?: - whose value contains neither IDN2_TRANSITIONAL nor IDN2_NO_TR46, although the macros put no parentheses around it; of the flags of libidn only the STD3 rules matter. Refuted: that the macros can be used with any flags expression (with 'a ? IDN2_TRANSITIONAL : 0' the missing parentheses let a combination through that is refused with parentheses); that IDNA_INVALID_LENGTH is what a label of invalid length gives (it is what disallowed characters give).",
  "every flags expression, every input, every Unicode database with NFC's laws, every locale", "How an argument is parsed after macro expansion depends on its operators; the claim is about all of them.", ["lib/idn2.h.in:idna_to_ascii_8z", "lib/idn2.h.in:Idna_rc", "lib/lookup.c:set_default_flags"])
p("Sizes do not wrap round",
  "With sizes of 64 bits no sum or product of sizes in lookup wraps round, for strings below 2^61 bytes; with sizes of 32 bits none does for strings below 715827885 bytes and arrays below 238609295 code points, with the STD3 rules or without UTS #46 for every string an implementation of C has. The bounds are sharp: UTS #46 makes at most 18 code points of 3 bytes. Refuted: that lookup is memory safe with 32-bit sizes for every string (715827885 bytes of U+FDFA: the length after mapping, 2^32 + 14, passes for 14, and lookup writes behind a buffer of 15 elements instead of returning IDN2_TOO_BIG_DOMAIN; the string and its UTF-32 form have fewer than 2^31 bytes each). idn2_to_unicode_44i copies every array of fewer than 2^(W-2) - 1 elements.",
  "every string and array, every width of at least 16 bits, every flags, every Unicode database", "Strings of hundreds of megabytes on a 32-bit machine are in no test suite, and no test shows that shorter ones are all right.", ["lib/lookup.c:_tr46", "lib/lookup.c:idn2_to_ascii_4i2", "lib/decode.c:idn2_to_unicode_44i"])
p("Lookup respects canonical equivalence",
  "The NFC of the Unicode 14 data decides canonical equivalence: two strings have the same NFC exactly if one becomes the other by taking characters apart into their canonical decompositions and swapping neighbouring marks of different classes, back and forth. With TR46 processing and without the STD3 rules (or without characters these are about), lookup gives canonically equivalent names the same result, or the same error, as long as neither has a disallowed character, no U+0345 stands before a mark that belongs before it, and both have fewer than 255 code points after mapping; in particular a caller may normalise a name without U+0345 to NFC or NFD first. Each condition is needed. Refuted: equivalence of alpha with U+0345 and U+0301 in either order (both accepted, different results); that NFC first makes no difference (alpha U+0316 U+0345); with the STD3 rules (a U+226E b against a, less-than, U+0338, b); disallowed characters (U+2F868 is refused, its decomposition U+36FC accepted); length (a name of 223 characters accepted, its NFD form refused as too long).",
  "all strings of code points, both mappings, every flags", "There are infinitely many sequences of marks; tests contain a few composed characters, and hardly any U+0345.", ["lib/lookup.c:_tr46", "lib/lookup.c:idn2_lookup_u8", "lib/idna.c:_idn2_u8_to_u32_nfc", "lib/tr46map.c:get_idna_map"])
p("Lookup ignores case and compatibility forms",
  "With TR46 processing lookup gives one result (or one error) for names that become each other by replacing characters by their full lower-case, upper-case, title-case or case-folded form, by their canonical or compatibility decomposition, and by swapping marks of different classes other than U+0345, back and forth, as long as the characters on both sides are not disallowed (and with the STD3 rules not concerned by these), and the two names have fewer than 255 code points after mapping. In particular a caller may pass a name in any case, in NFKC or in NFKD. Excepted are exactly dotless i, and without IDN2_TRANSITIONAL sharp s, capital sharp s, final sigma and six letters with final sigma as compatibility form; each of these has a variant that maps to something else. Refuted: upper case for sharp s (accepted, another name; the same name with IDN2_TRANSITIONAL) and for dotless i (another name with all flags).",
  "all strings of code points, all chains of replacements, every flags", "About 9700 pairs of characters and variants, in any combination and order; tests contain a handful.", ["lib/lookup.c:_tr46", "lib/tr46map.c:get_idna_map", "lib/lookup.c:idn2_lookup_u8"])
p("With IDN2_NFC_INPUT canonically equivalent names are treated alike without TR46",
  "With IDN2_NO_TR46 | IDN2_NFC_INPUT lookup, and with IDN2_NFC_INPUT registration of a U-label, give one result or one error for canonically equivalent names, as long as neither has a code point above U+FFFF nor one of the three characters equivalent to an ASCII character (U+037E, U+1FEF, U+212A). Whatever they contain, and whatever the other flags, two equivalent names that are both accepted have one result. The conditions are needed: 'K' is accepted and KELVIN SIGN refused; U+1109A is accepted and U+11099 U+110BA refused as not normalised, though normalisation was asked for; and in registration with both forms the flag has no effect, so that a decomposed U-label does not match its own A-label.",
  "all pairs of canonically equivalent strings of code points, all flags of the modes concerned", "Canonically equivalent spellings of a name are unlimited in number; tests contain two.", ["lib/idna.c:_idn2_u8_to_u32_nfc", "lib/idna.c:_isNFC", "lib/lookup.c:label", "lib/register.c:idn2_register_u8"])
p("The version of libunistring matters only for code points the tables of libidn2 do not know",
  "If two versions of libunistring say the same about the code points of a name after mapping and about those its A-labels stand for, lookup gives the same result or the same error with both; likewise registration, for the code points of the U-label or of the decoded A-label. Hence two versions that agree on the code points known to the tables of libidn2 (not both disallowed by UTS 46 and unassigned by IDNA 2008) accept the same names with the same results. The conditions are needed: the error of a refused name may change; where normalisation comes before all checks (IDN2_NO_TR46 | IDN2_NFC_INPUT, registration with IDN2_NFC_INPUT) a refused name may become accepted; and a version older than the tables, which does not know the mark U+0B55, lets a label begin with it.",
  "all pairs of character databases that agree on a set of code points closed under normalisation, all names and flags", "A test runs with the one version of libunistring that is installed.", ["lib/lookup.c:idn2_lookup_u8", "lib/register.c:idn2_register_u8", "lib/idna.c:_idn2_label_test", "lib/context.c:_idn2_contextj_rule", "lib/bidi.c:_idn2_bidi"])
p("What the fallback recommended in the manual accepts",
  "The manual advises to call idn2_to_ascii_8z with IDN2_NONTRANSITIONAL and, if it returns IDN2_DISALLOWED, again with IDN2_TRANSITIONAL. This accepts exactly the names that the first call accepts, and of the names whose first unconvertible label holds a character disallowed by IDNA 2008 those that transitional processing accepts; it refuses with the code of the last call made and leaves the caller's pointer alone. Nothing leaks between the two calls, and failing allocations give IDN2_MALLOC. A name without deviation characters gets the result that transitional processing alone gives, and its result looked up again gives itself; any result looked up again never fails with IDN2_DISALLOWED. Not true, with witnesses: that the name is converted label by label (fass with sharp s changes its meaning beside a label with a cup), that acceptance is independent of the order of labels, and that an accepted label satisfies the BIDI rule.",
  "all byte strings, all character databases satisfying the laws of NFC, all allocation failures", "The second call depends on why the first one failed; tests try a few names.", ["doc/libidn2.texi:381-391", "lib/lookup.c:idn2_to_ascii_8z", "lib/lookup.c:idn2_lookup_u8"])
p("UTS 46 adds mapping and rules about hyphens to IDNA 2008, nothing else",
  "A name in small letters that lookup with IDN2_NO_TR46 accepts is accepted with UTS 46 (nontransitional, the default) with the same result exactly when no label, as shown, has a hyphen at its start or end or hyphens in third and fourth place; capitals outside an ACE prefix are only turned into small letters in the result. Conversely, what lookup with UTS 46 returns for a name is what IDN2_NO_TR46 returns for the mapped and normalised name, if no label mixes characters outside ASCII with those that only the STD3 rules forbid, or the STD3 rules are on; and what IDN2_NO_TR46 returns for the mapped and normalised name without such hyphens UTS 46 returns for the name. Under these conditions a program can change from one to the other without names changing their meaning. The conditions are needed: 'r3---sn' and '-a' are refused by UTS 46 only, 'XN--A' is not even looked at by IDN2_NO_TR46, and an underscore in a label with a letter outside ASCII is accepted by UTS 46 only.",
  "all names, all flags of the two kinds with the check of A-labels, all character databases satisfying the laws of NFC in which no ASCII character is a mark", "The claim relates two modes on all names and rests on two tables agreeing on all 1.1 million code points.", ["lib/lookup.c:idn2_lookup_u8", "lib/lookup.c:_tr46", "lib/lookup.c:label", "lib/idna.c:_idn2_label_test"])
p("What idn2 --debug prints identifies the names it was given",
  "With --debug the tool prints, for each name before it is converted and again after success, one line for each byte with its index and two or more hexadecimal digits, the same for the name in UTF-8 if the conversion from the encoding of the locale changes it, and one line for each code point with four or more digits; bytes above 127 are shown as themselves though char may be signed. A name that cannot be converted is shown by its bytes only. The two commands 'show w' and 'show c' are not shown, the name that is refused is shown once and nothing after it, and without --debug nothing is shown. From the debug output of a whole run all names that are not empty can be read back, in order; empty ones leave no trace (refuted with a witness). What stands under 'output' is the input again.",
  "all options, command lines, contents of standard input, locales and character databases satisfying the laws of NFC", "The claim is about the text for every sequence of names, and that no two different sequences have the same text.", ["src/idn2.c:hexdump", "src/idn2.c:process_input", "src/idn2.c:main"])
p("A result can be looked up again with other flags without becoming another name",
  "Programs pass names on that have already been converted, to others that use other flags. What lookup with UTS 46 and the A-label check returns is accepted and returned unchanged by a second lookup with UTS 46 under any valid flags, with or without the A-label check, provided the second is not stricter: nontransitional only after nontransitional, and STD3 rules only after STD3 rules or on a name without the characters they forbid; so a name converted without transitional processing stays what it is with transitional processing, sharp s included. After nontransitional processing the same holds for IDN2_NO_TR46, and with IDN2_NO_TR46 and IDN2_NO_ALABEL_ROUNDTRIP it always does. Where the second lookup may fail, also with other Unicode data, it still never returns another name, but for STD3 rules on a name with characters they forbid: 'a_b' becomes 'ab' (refuted with a witness, as are the other conditions).",
  "all names, all pairs of flags, all character databases satisfying the laws of NFC", "The claim relates two runs under different flags on all names.", ["lib/lookup.c:idn2_lookup_u8", "lib/lookup.c:_tr46", "lib/lookup.c:label"])
p("Lookup keeps and reflects which name is below which",
  "Cookies, certificates with wildcards and lists of public suffixes are matched by asking whether one converted name ends in a dot and another. For results of lookup with the A-label check, whatever the flags and the Unicode data of each, that is so exactly if it is so of what idn2_to_unicode displays for them, and, with UTS 46, exactly if it is so of the displayed forms of the two names given, after the UTS 46 mapping and NFC; in particular if the second name as given is the end of the first after a dot. And every domain above a result is a result: it is looked up under the same flags without changing it. Without the A-label check that last claim fails (refuted with a witness).",
  "all pairs of accepted names, all pairs of flags and character databases satisfying the laws of NFC", "The claim relates two conversions of all pairs of names and the labels of each.", ["lib/lookup.c:idn2_lookup_u8", "lib/decode.c:idn2_to_unicode_8z4z"])
p("The C text of the Punycode coder, run by the rules of C11, computes RFC 3492",
  "Take the statements of lib/puny_decode.c and lib/puny_encode.c one by one and run them by the rules of C11 for integer types, promotions and conversions, on a machine with 32-bit int and 64-bit size_t and with char signed or unsigned. For every array of bytes, every array of unsigned 32-bit integers and every claimed output size not above the real one (for the decoder below 2^32-1), execution ends without undefined behaviour: no signed overflow, division by zero, bad shift, read of a variable or cell that was never set, access outside an array. The input is left as it was. The decoder returns success with a result exactly if RFC 3492 assigns it to the string, and the encoder likewise; every error code is the one the input calls for, and then *output_length is unchanged. What a machine with signed char encodes, one with unsigned char decodes, and conversely. No operand uses what another changes, so that the order of evaluation, which C11 leaves open, does not matter. With a size larger than the array the decoder has undefined behaviour (refuted with a witness).",
  "all inputs, all output sizes and buffers, both signednesses of char, executions of any length", "The claim is about every execution of the text, including the absence of undefined behaviour that a compiler may exploit and a run cannot show, on both kinds of machine.", ["lib/puny_decode.c:punycode_decode", "lib/puny_encode.c:punycode_encode"])
p("The C text of the label tests, run by the rules of C11, implements RFC 5892, RFC 5893 and the tests of the lookup",
  "Take the statements of lib/bidi.c and lib/context.c and of _isNFC, _idn2_ascii_p and _idn2_label_test in lib/idna.c one by one and run them by the rules of C11, with any properties of characters that libunistring may give. For every array of unsigned 32-bit integers execution ends without undefined behaviour: no access before or behind the label, no size_t that wraps round into an index, no variable read before it is set; the label is left as it was. _idn2_bidi returns success exactly for labels without right-to-left characters or within the Bidi rule as implemented, the context rules exactly where the rules of RFC 5892 appendix A hold around the position, and otherwise the error of the rule. _idn2_label_test returns success exactly if every test asked for by the flags passes, for all 2^31 sets of flags, and otherwise the code of the first one that fails. _isNFC never returns its third result, -1. With a position behind the end of the label the context rules have undefined behaviour. No expression depends on the order of evaluation.",
  "all labels, positions, sets of flags, character properties; executions of any length", "Absence of undefined behaviour on every label is a claim about all executions; a run that reads one element before the array usually gives the right answer all the same.", ["lib/bidi.c:_idn2_bidi", "lib/context.c:_idn2_contextj_rule", "lib/context.c:_idn2_contexto_rule", "lib/idna.c:_idn2_label_test", "lib/idna.c:_isNFC", "lib/idna.c:_idn2_ascii_p"])
p("The C text of the table lookups finds the right entry with every bsearch that C11 allows",
  "Take the statements of lib/tables.c and lib/tr46map.c one by one, with the arrays of the library, and run them by the rules of C11. For bsearch take any function that meets C11 7.22.5.1: if the array is partitioned with respect to the key it returns some matching element or NULL, and otherwise it may do anything, crash included. For every 32-bit code point, execution ends without undefined behaviour, so the arrays are partitioned for every key and no comparison reads outside a record. The class is the one of the IANA registry file, unassigned where that has no line. get_idna_map returns 0 for exactly the code points up to U+10FFFF, whatever the structure held before; map_is then confirms exactly the status of IdnaMappingTable.txt, and get_map_data writes the mapping of that file to dst, returns its length, and leaves the rest of dst alone. Beyond U+10FFFF get_idna_map returns -1 with all members zero, which map_is takes for disallowed_STD3_valid. get_nfcqc_map finds the entry of DerivedNormalizationProps.txt or NULL. These are the values with which the label tests of C93 were run. A binary search as in glibc and a linear search both meet the hypothesis.",
  "all 32-bit code points, all conforming bsearch functions, all previous contents of the structure and of dst", "A test runs with one bsearch, and with it a table that is out of order in one place still works for most keys.", ["lib/tables.c:property", "lib/tables.c:_compare", "lib/tables.c:_idn2_disallowed_p", "lib/tables.c:_idn2_contextj_p", "lib/tables.c:_idn2_contexto_p", "lib/tables.c:_idn2_unassigned_p", "lib/tr46map.c:_fill_map", "lib/tr46map.c:_compare_idna_map", "lib/tr46map.c:get_idna_map", "lib/tr46map.c:map_is", "lib/tr46map.c:get_map_data", "lib/tr46map.c:get_nfcqc_map"])
p("The C text of lookup.c around label() does what the lookup is specified to do",
  "Take the statements of set_default_flags, c_strncasecmp, _tr46 and the loop of idn2_lookup_u8 one by one and run them by the rules of C11. Execution ends without undefined behaviour: no index leaves a buffer, _lookupname included, no arithmetic overflows, nothing uninitialised is read. set_default_flags refuses exactly the contradicting options and otherwise adds IDN2_NONTRANSITIONAL unless IDN2_NO_TR46 or IDN2_TRANSITIONAL is given, leaving all other bits alone. c_strncasecmp is 0 exactly when the first n bytes, up to a NUL, agree up to ASCII case. The first loop of _tr46 asks malloc for exactly the size that the second loop fills, refuses a disallowed code point and a mapped name of 255 or more, and the second loop writes the UTS 46 mapping and a NUL and nothing else. The third loop returns the error of the last wrong label, or that of the first undecodable one. With any function for label() that returns an error or at most 63 bytes, the name is the labels joined with dots if that fits in 253 bytes, or 254 with a final dot, and else the error is that of the first label that is wrong or does not fit; malloc is asked for exactly one byte more than the name. Put together in the order of the file, the parts return exactly the names of C58 and exactly the error codes of C64.",
  "all C strings, all option values that fit an int, all label functions that keep to their buffer", "A test cannot see a read of one byte beyond the string or an overflow that happens to do no harm, and the limits of 253 and 254 bytes interact with every label.", ["lib/lookup.c:set_default_flags", "lib/lookup.c:c_strncasecmp", "lib/lookup.c:_tr46", "lib/lookup.c:idn2_lookup_u8"])
p("The C text of label() does what one label is specified to need",
  "Take the statements of label() one by one and run them by the rules of C11 on any label, with *dstlen = 63 and a dst of 63 bytes that may hold anything. Execution ends without undefined behaviour, src is unchanged, and there is one result. With IDN2_NO_TR46 it is a name t exactly when RFC 5891 section 5 gives t for the label: plain ASCII is copied, an A-label is decoded, tested, encoded again and compared up to case, anything else is normalised if IDN2_NFC_INPUT asks for it, tested, encoded and checked by decoding; otherwise the error code is exactly the one of the first step that fails. Put in place of label() in the text of the lookup, in every mode the names returned are exactly those of C58 and the error codes exactly those of C64.",
  "all labels without NUL and dot, all option values that fit an int, all contents of dst before the call", "The decode, test, encode and compare branches interact with two flags and three buffers whose lengths change on the way; a test sees a few labels, and a stale length or an off-by-four in dst shows only with the right one.", ["lib/lookup.c:label", "lib/lookup.c:idn2_lookup_u8"])
p("The C text of decode.c gives the Unicode form of a name",
  "Take the statements of idn2_to_unicode_8z4z one by one and run them by the rules of C11 on any NUL-terminated string, with char signed or unsigned, with output NULL or not, and whatever the array for a label held before. Execution ends without undefined behaviour: no index leaves input, label_u32 or out_u32, the input is unchanged. The call succeeds and hands the string r with its terminator to u32_cpy_alloc exactly when r is the Unicode form of the name as in C23, otherwise it returns exactly the code of C68: that of the first label that has none, or of the label with which the result gets too long. The signedness of char makes no difference. The end of idn2_to_unicode_44i writes to out the first *outlen elements of the result and not one more, leaves the rest of out alone, and sets *outlen to the full length.",
  "all byte strings of less than 2^62 bytes, both kinds of char, all contents of label_u32, all sizes of out", "The loop works with two pointers into the input and a fill level that are moved in four places; whether the fill level can pass the end of out_u32 depends on all labels together, and char is signed on one machine and unsigned on another.", ["lib/decode.c:idn2_to_unicode_8z4z", "lib/decode.c:idn2_to_unicode_44i"])
p("The C text of register.c registers what IDNA asks for",
  "Take the statements of idn2_register_u8 one by one and run them by the rules of C11 on any NUL-terminated U-label and A-label, with insertname NULL or not, and whatever the arrays u32, u8, tmp and the result held before. Execution ends without undefined behaviour: no index leaves an array, no string function runs past a terminator, the arguments are unchanged. The call succeeds and puts the string r with its terminator in *insertname exactly when r is what the two labels register (C66), otherwise it returns exactly the refusal code of C66 and leaves *insertname alone. The inner call, which recomputes the A-label from the decoded U-label, is the same text.",
  "all pairs of byte strings of less than 2^60 bytes (error codes of a U-label: 10^9), all flags, all contents of the arrays, all Unicode normalisers that at most quadruple a string", "Five fixed-size buffers are filled by calls that report lengths through the same variable that gave the capacity; whether a terminator fits behind the longest conversion, or tmp + 4 with 59 bytes can pass tmp, depends on bounds that hold only for strings that passed the tests before.", ["lib/register.c:idn2_register_u8"])
p("The C text of the conversions around lookup hands on the right strings",
  "Take the statements of _idn2_u8_to_u32_nfc, idn2_lookup_ul, idn2_to_ascii_4i2, idn2_to_ascii_4z and idn2_to_ascii_4i one by one and run them by the rules of C11 on any input that is not NULL, with the output pointer NULL or not, and whatever the arrays held before and behind the input. Execution ends without undefined behaviour and leaves the input alone. _idn2_u8_to_u32_nfc gives the code points, put through the normaliser only if asked to and if the quick check does not say yes, or the one code that fits. idn2_to_ascii_4i2 asks for 4 (inlen + 1) bytes, looks up the elements up to the first zero, but refuses with IDN2_ENCODING_ERROR if any element, even behind that zero, has no UTF-8 form; idn2_to_ascii_4z looks up the string; idn2_lookup_ul looks up the converted string with IDN2_NFC_INPUT added. Each succeeds with r exactly when the lookup rules accept with r, else it returns exactly their code and leaves the output alone. idn2_to_ascii_4i writes the at most 63 bytes of the result without a terminator, or leaves the array of the caller alone.",
  "all inputs of less than 10^17 elements (error codes with IDN2_NO_TR46: 2.5 * 10^8), all flags, all contents of the arrays and of the memory behind the input, all Unicode normalisers that at most quadruple a string, all conversions from the encoding of a locale", "The result depends on elements behind an embedded zero, on stale memory that a missing terminator would expose, and on the length that a 63-byte array of the caller can take; a test sees only the layouts it happens to build.", ["lib/idna.c:_idn2_u8_to_u32_nfc", "lib/lookup.c:idn2_lookup_ul", "lib/lookup.c:idn2_to_ascii_4i2", "lib/lookup.c:idn2_to_ascii_4z", "lib/lookup.c:idn2_to_ascii_4i"])
p("The C text of the conversions around idn2_to_unicode_8z4z hands on the right strings",
  "Take the statements of idn2_to_unicode_4z4z, idn2_to_unicode_8z8z, idn2_to_unicode_8zlz and idn2_to_unicode_lzlz one by one and run them by the rules of C11 on any string, with the output pointer NULL or not, and whatever the arrays held before and behind the string. Execution ends without undefined behaviour and leaves the input alone. Each succeeds with a string exactly when that string is the Unicode form of the name, converted on the way in from UTF-32 or from the encoding of the locale, and on the way out to UTF-8 or to the encoding of the locale. Otherwise the return code is the one of the step that failed: IDN2_ENCODING_ERROR for code points that have no UTF-8 form and for a result that the encoding of the locale lacks, IDN2_ICONV_FAIL for an input that cannot be read in that encoding, and else the code of idn2_to_unicode_8z4z; and the output is left alone.",
  "all strings of less than 2^62 bytes (UTF-32: 10^17 elements), all contents of the arrays and of the memory behind the string, all conversions from and to the encoding of a locale", "Which of two failures is reported, and whether the output is untouched, depends on pairs of name and locale; a test run sees one locale and a few names, and never the contents of memory behind the string.", ["lib/decode.c:idn2_to_unicode_4z4z", "lib/decode.c:idn2_to_unicode_8z8z", "lib/decode.c:idn2_to_unicode_8zlz", "lib/decode.c:idn2_to_unicode_lzlz"])
p("The C text of idn2_to_unicode_44i writes within the buffer of the caller",
  "Take the statements of idn2_to_unicode_44i one by one and run them by the rules of C11 on any array of inlen code points, with out and outlen NULL or not, and whatever the arrays held before. Execution ends without undefined behaviour and leaves the input alone. The size asked for is 4 (inlen + 1). If the elements before the first zero have a Unicode form, the return code is IDN2_OK, as many code points of it as *outlen allows are written to out, if both are there, no other element of out changes, and *outlen becomes its whole length. Otherwise the return code is the one of idn2_to_unicode_4z4z and neither out nor *outlen changes. One of the two happens, and never both.",
  "all arrays of less than 10^17 elements (the size: all inlen below 2^62), all contents of the arrays, all values of *outlen, NULL or not", "A write past the buffer of the caller, or a buffer changed though the call failed, depends on the length of the result and on *outlen together; tests try a few pairs.", ["lib/decode.c:idn2_to_unicode_44i"])
p("The C text of idn2_register_ul converts and normalises the U-label and registers it",
  "Take the statements of idn2_register_ul one by one and run them by the rules of C11 on any U-label in the encoding of the locale and any A-label, either of which may be NULL, with insertname NULL or not, and whatever the arrays held before and behind the strings. Execution ends without undefined behaviour and leaves the labels alone. It succeeds with a label exactly when that label is what is to be registered for the U-label converted to UTF-8 and the A-label, with IDN2_NFC_INPUT added to the flags. If the conversion fails the code is IDN2_ICONV_FAIL, even if the A-label alone could be registered; otherwise it is the code with which this registration is refused. *insertname is written on success only.",
  "all U-labels of up to 10^9 bytes after conversion, all A-labels of less than 2^62 bytes, not both NULL, all flags, all contents of the arrays, all conversions from the encoding of a locale", "Which failure is reported for a pair of labels, and whether the output is untouched, depends on pairs of labels and the locale; a test run sees one locale and a few pairs.", ["lib/register.c:idn2_register_ul"])
with open("/verif/properties.jsonl","w") as f:
    for e in P: f.write(json.dumps(e)+"\n")
print(len(P))
