#!/usr/bin/env python3
"""Writes MANIFEST.json."""
import json, os
C = []
def claim(p, status, theorems, note):
    C.append({"property": p, "status": status, "theorems": theorems.split(), "note": note})

claim("C01", "proved", "C01_encode_decode", "Unconditional up to 110 code points; beyond that the only other outcome is PUNYCODE_OVERFLOW.")
claim("C02", "proved", "C02_decode_encode C02_decode_injective", "Claimed buffer size below 2^32-1.")
claim("C03", "proved", "C03_encode_safe", "")
claim("C04", "proved", "C04_C05_decode_safe C04_decode_large_buffer_refuted", "Holds for claimed sizes below 2^32-1; a size of 2^32-1 is shown to be unsafe. No caller in the library passes more than 63.")
claim("C05", "proved", "C04_C05_decode_safe", "")
claim("C06", "proved", "C06_encode_shape", "")
claim("C51", "proved", "C51_decode_rfc3492", "Against an independent relational transcription of RFC 3492 in unbounded integers.")

claim("C33", "proved", "C33_bidi_exact C33_bidi_total C33_bidi_complete", "")
claim("C34", "proved", "C34_bidi_rule4_refuted C34_bidi_rule3_refuted C34_bidi_gap", "The gap against RFC 5893 is also bounded from above.")
claim("C35", "proved", "C35_contextj", "")
claim("C36", "proved", "C36_contexto C36_rules_complete", "")
claim("C37", "proved", "C37_property C37_csv_functional C37_generator", "The generator theorem covers every sorted CSV file.")
claim("C38", "proved", "C38_tr46_table C38_tr46_outside C38_rows_functional C38_nfcqc", "The byte tables are computed inside Coq by the transcribed generator from the rows of the data files and then validated.")
claim("C41", "proved", "C41_nfc_quick_check C41_nfc_input C41_no_nfc_input C41_not_utf8 C41_nfc_input_supplementary_refuted C41_unicode_data", "")
claim("C42", "proved", "C42_label_test_ok C42_label_test_fail C42_label_test_safe", "")
claim("C45", "proved", "C45_utf8_decode C45_utf8_encode C45_utf8_inverse C45_utf8_domain", "libunistring conversions are modelled from their documentation.")

NFC = "For every Unicode database whose NFC satisfies the five laws of nfc_ok (SpecNfc.v)."
claim("C07", "proved", "C07_lookup_shape", NFC)
claim("C08", "proved", "C08_lookup_safe", NFC)
claim("C09", "proved", "C09_idempotent", NFC)
claim("C10", "proved", "C10_idempotent_no_roundtrip_refuted", "Witness: u-umlaut followed by '!'.")
claim("C12", "proved", "C12_ascii_passthrough", NFC)
claim("C13", "proved", "C13_ascii_lowered C13_ascii_unaltered_refuted", NFC)
claim("C14", "proved", "C14_case_insensitive", NFC)
claim("C15", "proved", "C15_dots_ignored", NFC)
claim("C16", "proved", "C16_invalid_flags C16_name_not_examined", "")
claim("C17", "proved", "C17_nontransitional_default C17_roundtrip_default C17_unassigned_inert C17_std3_inert_no_tr46 C17_unknown_bits_inert", "No condition on the Unicode database.")
claim("C18", "proved", "C18_tr46_implies_nfc", NFC)
claim("C39", "proved", "C39_mapping C39_disallowed C39_too_big C39_not_utf8 C39_only_mapping_matters", NFC)
claim("C40", "proved", "C40_mapping_stable", "For the shipped IdnaMappingTable.txt.")
claim("C43", "proved", "C43_accepted_tests", NFC)
claim("C44", "proved", "C44_no_upper_case", NFC)
claim("C52", "proved", "C52_error_codes", NFC)

claim("C11", "proved", "C11_unicode_of_result C11_unicode_of_prepared C11_and_back C11_back_transitional_refuted C11_back_std3_mapped_refuted C11_upper_ace_refuted", NFC + " The restrictions on the way back are necessary: see the refutations.")
claim("C19", "proved", "C19_null_input C19_null_output C19_4i_null C19_4i_null_output C19_44i_null C19_44i_null_output", "For any locale conversion.")
claim("C20", "proved", "C20_8z8z_null C20_null_input_refuted", "")
claim("C21", "proved", "C21_agree C21_unencodable C21_embedded_zero C21_locale C21_locale_unconvertible C21_locale_8z", "For any locale conversion.")
claim("C22", "proved", "C22_4i C22_4i_fail C22_4i_unencodable C22_4i_safe C22_4i_terminated_refuted", NFC)
claim("C23", "proved", "C23_labelwise", "An exact characterisation.")
claim("C24", "proved", "C24_safe_bounded C24_documented_codes_refuted", "The Punycode codes are not in the documented list.")
claim("C25", "proved", "C25_44i C25_44i_safe C25_44i_embedded_zero C25_truncation_silent", "")
claim("C26", "proved", "C26_4z4z C26_4z4z_unencodable C26_8z8z C26_8zlz C26_8zlz_fail C26_lzlz C26_all_encodable_refuted", "")
claim("C27", "proved", "C27_idempotent_refuted C27_injective_refuted C27_idempotent_without_ace", "")
claim("C47", "proved", "C47_untouched C47_delivers C47_4i_untouched C47_44i_untouched", "Registration: see C32.")
claim("C53", "proved", "C53_decode_exact", "")
claim("C54", "proved", "C54_locals_set", "")

claim("C28", "proved", "C28_sound C28_shape C28_complete C28_normalises_refuted", NFC + " With IDN2_NFC_INPUT also nfc_no_ldh: NFC turns no other string into letters, digits and hyphens.")
claim("C29", "proved", "C29_alabel C29_mismatch C29_not_alabel", NFC)
claim("C30", "proved", "C30_round_trip", NFC)
claim("C31", "proved", "C31_ascii", "No condition on the Unicode database.")
claim("C32", "proved", "C32_codes C32_locale C32_pointers C32_untouched", NFC + " Out-of-bounds accesses are a separate outcome of the model, excluded here; memory management apart.")
claim("C55", "proved", "C55_lookup C55_registered C55_transitional_refuted", NFC)

claim("C48", "proved", "C48_names C48_names_distinct C48_names_refuted C48_messages C48_messages_fit C48_messages_refuted C48_lookup_explained C48_others_explained", "The two gaps are stated as refutations.")
claim("C49", "proved", "C49_releases C49_order C49_total_order", "strverscmp is external (glibc/gnulib); its published algorithm is transcribed.")
claim("C50", "proved", "C50_session C50_session_unique C50_flags C50_stdin_like_arguments C50_complaints C50_debug_refuted", NFC + " The option parser is generated by gengetopt and not modelled; locale conversion is assumed to yield C strings.")

claim("C46", "proved", "C46_bytes C46_wide C46_register C46_register_ul C46_4i C46_44i C46_bytes_exact C46_wide_exact C46_register_exact C46_bytes_tidy C46_wide_tidy C46_register_tidy C46_4i_tidy C46_44i_tidy C46_free C46_any_errno_refuted", NFC + " libunistring conversions are one allocation each; the code returned after a failure assumes that free keeps errno, the rest does not.")

claim("C56", "proved", "C56_mapping C56_unlisted C56_quick_check C56_shipped C56_crossing_refuted C56_meeting_refuted", "The files are given as rows; C62 is about their text.")

claim("C57", "proved", "C57_encode_exact C57_encoding_unique", "")
claim("C58", "proved", "C58_lookup_exact C58_refusal C58_api C58_unicode14 C58_unique", NFC + " C58_unicode14 is for the Unicode 14 database and needs no condition.")
claim("C59", "proved", "C59_no_roundtrip_more", NFC)
claim("C60", "proved", "C60_transitional_agrees C60_transitional_exact C60_converse_refuted C60_deviation_refuted", NFC)
claim("C61", "proved", "C61_std3_agrees C61_std3_exact C61_converse_refuted", NFC)

claim("C62", "proved", "C62_mapping_file C62_props_file C62_csv_file C62_text_to_table C62_shipped C62_library_map C62_library_property C62_long_lines_refuted C62_malformed_refuted", "fgets, isspace, strpbrk, strtok and sscanf are transcribed; the generated arrays are the result, not their C text. Lines of at most 1022 bytes; the refuted theorems show what happens outside the format.")
claim("C63", "proved", "C63_compose C63_absolute C63_bidi_domain_refuted C63_empty_label_refuted", NFC + " The refuted theorems show what treating labels alone lets through.")
claim("C64", "proved", "C64_explained C64_refused C64_exact C64_unique C64_accept_or_refuse C64_raw_first C64_first_label_refuted", NFC + " For names of more than 10^9 bytes without TR46 it is not specified which of PUNYCODE_BIG_OUTPUT and PUNYCODE_OVERFLOW is reported.")
claim("C65", "proved", "C65_rfc_decodes_unique C65_sound C65_complete C65_bidi_refuted C65_std3_refuted C65_mapped_refuted C65_joiners_refuted C65_empty_refuted C65_characters_refuted C65_length_refuted", NFC + " The refutations show which conditions of the two theorems cannot be left out.")
claim("C66", "proved", "C66_exact C66_explained C66_refused C66_refused_exact C66_unique C66_accept_or_refuse", NFC + " For U-labels of more than 10^9 bytes it is not specified which of PUNYCODE_BIG_OUTPUT and PUNYCODE_OVERFLOW is reported.")
claim("C67", "proved", "C67_decode C67_encode C67_decode_unique C67_encode_unique C67_decode_partition C67_encode_partition", "The encoder for room of at most 109 bytes (callers: 59) and labels of at most 4172415000 code points.")
claim("C68", "proved", "C68_8z4z C68_8z8z C68_4z4z C68_44i C68_nonzero C68_unique C68_partition", "malloc succeeds; the locale variants add only their conversions (C26).")
claim("C69", "proved", "C69_same_iff C69_same_form C69_no_roundtrip_refuted C69_upper_ace_refuted", NFC)
claim("C70", "proved", "C70_nfc_flag", NFC)
claim("C71", "proved", "C71_agrees C71_mapping_refuted C71_validity_refuted C71_alabel_validity_refuted", "For parameters under which A-labels of ASCII strings are refused, as the library does.")
claim("C72", "proved", "C72_tr46map_data C72_tr46map_total C72_data C72_unchecked_refuted C72_shipped_data C72_shipped_tr46map", "C is read by a small reader of declarations written after C11 (SpecCText); arrays of size 0 and empty initializers are accepted as by GNU C.")
claim("C73", "proved", "C73_lookup C73_lookup_tr46 C73_lookup_unicode14 C73_to_unicode C73_encode C73_decode C73_register_alabel C73_register_ulabel C73_register_linear_refuted", "The counting functions c_f (Step.v) are proved to compute the model's results; the constants are not tight.")
claim("C74", "proved", "C74_register C74_to_ascii C74_to_unicode C74_to_unicode_refuted C74_alabel_cut C74_alabel_refuted", "As stated, with the exceptions refuted by witness.")
claim("C75", "proved", "C75_lookup C75_decode C75_register C75_toascii C75_tounicode C75_last_character_lost C75_long_line C75_nul_inside C75_others_cut C75_nul_first_undefined C75_no_input C75_every_input", "printf calls are recorded with format and arguments; the formatting is not modelled.")
claim("C76", "proved", "C76_wire C76_unique C76_exact C76_distinct C76_distinct_refuted C76_wire_refuted", "An empty label inside a name is the exception; the root name \".\" is left out.")
claim("C77", "proved", "C77_result C77_result_std3 C77_ulabel C77_hyphen_refuted C77_contexto_refuted C77_std3_refuted C77_transitional_refuted", "")
claim("C78", "proved", "C78_bytes C78_wide C78_register C78_register_ul C78_4i C78_44i C78_fixed_quota_refuted", NFC + " (its bound on the length of the normal form is used). Memory is counted in elements of the strings, each libunistring conversion as one block of the size of its result; free keeps errno.")
claim("C79", "proved", "C79_host_names C79_unicode14 C79_ascii_result C79_ascii_exact C79_refuses_refuted C79_no_flag_refuted C79_no_tr46_refuted C79_nonempty_refuted", NFC + "; C79_unicode14 and C79_ascii_exact assume nothing.")
claim("C80", "proved", "C80_code C80_defined C80_no_race C80_hands_off C80_ends C80_no_deadlock C80_result C80_memory C80_no_leak", NFC + "; errno is per thread, and the functions of libunistring and the C library are thread safe; C80_ends and C80_code assume nothing.")
claim("C81", "proved", "C81_macros C81_expands C81_unambiguous C81_libidn_flags C81_other_flags_refuted C81_length_refuted", NFC + " (C81_macros, C81_libidn_flags); the grammar is that of C11 6.5 for these operators.")
claim("C82", "proved", "C82_wraps C82_same C82_growth C82_growth_reached C82_64 C82_32 C82_32_refuted C82_std3 C82_no_tr46 C82_arrays C82_arrays_refuted C82_44i C82_44i_limit", "No hypothesis on the Unicode database. Sums of sizes already compared with 63 or 255 are not reduced; memory is taken to suffice.")
claim("C83", "proved", "C83_nfc C83_nfc_itself C83_nfd C83_mapping C83_lookup C83_accepted C83_normalised C83_allowed C83_iota_refuted C83_nfc_first_refuted C83_std3_refuted C83_disallowed_refuted C83_length_refuted", "For the Unicode 14 data of DataUcd.v.")
claim("C84", "proved", "C84_mapping C84_lookup C84_case C84_compat C84_canon C84_odd C84_sharp_s_refuted C84_dotless_i_refuted", "For the Unicode 14 data of DataUcd.v and DataCase.v; case mappings without context (a capital sigma becomes a small sigma everywhere).")
claim("C85", "proved", "C85_lookup C85_register C85_lookup_accepted C85_register_accepted C85_twins C85_twin_refuted C85_supplementary_refuted C85_alabel_refuted", "For the Unicode 14 data of DataUcd.v.")
claim("C86", "proved", "C86_lookup C86_register C86_upgrade C86_register_upgrade C86_error_refuted C86_nfc_refuted C86_older_refuted", "The database is the parameter uenv of the model.")
claim("C87", "proved", "C87_exact C87_refusal C87_again C87_stable C87_transitional C87_memory C87_tidy C87_compose_refuted C87_order_refuted C87_bidi_refuted", "The manual's program is modelled as a client of the API.")
claim("C88", "proved", "C88_lower C88_mixed_case C88_to_plain C88_from_plain C88_hyphens_refuted C88_upper_refuted C88_std3_refuted", "For IDN2_NO_TR46 without IDN2_NFC_INPUT where that lookup is the premise; C70 says when that option matters.")
claim("C89", "proved", "C89_text C89_run C89_read_back C89_off C89_empty_refuted", "Of the two runs that C89_read_back compares the locales are the same. The line with the charset and the greeting stand before the names and are kept apart as events.")
claim("C90", "proved", "C90_again C90_plain C90_unchecked C90_never_other C90_std3_refuted C90_transitional_refuted C90_plain_refuted", "The same flags twice are C09, IDN2_NO_TR46 first and UTS 46 second is C88.")
claim("C91", "proved", "C91_forms C91_names C91_sources C91_parents C91_parents_unchecked_refuted", "Equality of results instead of the relation 'below' is C69; the flags with IDN2_NO_TR46 need that the result has no A-label prefix in capitals, as there.")
claim("C92", "proved", "C92_decode_defined C92_decode C92_decode_codes C92_encode_defined C92_encode C92_encode_codes C92_model C92_round_trip C92_claimed_size_refuted C92_order", "The exact characterisations are for output sizes up to 109, as in C53 and C57; C92_model has no such limit. The three arrays are assumed not to overlap, as in all callers.")
claim("C93", "proved", "C93_bidi C93_contextj C93_contexto C93_outside C93_label_test C93_isNFC C93_ascii C93_model C93_order", "The tables (tables.c, tr46map.c) and libunistring are called through Gallina functions. The case ENOMEM of u32_normalize is left to C46.")
claim("C94", "proved", "C94_property C94_classes C94_idna_map C94_outside C94_nfcqc C94_label_classes C94_label_maps C94_label_nfcqc C94_bsearch C94_order", "The arrays are the generated ones of Tables.v and Tr46Tables.v. Structures are one array per member.")
claim("C95", "proved", "C95_default_flags C95_strncasecmp C95_tr46_count C95_tr46_write C95_tr46_labels C95_tr46_labels_all C95_name_done C95_name_error C95_name_long C95_name_all C95_label_like C95_accepts C95_refuses C95_order", "The parts between malloc, u32_normalize and u32_to_u8 are run separately; lookup_text puts them together. label() is any function keeping to its buffer, or the model.")
claim("C96", "proved", "C96_returns C96_label C96_label_code C96_accepts C96_refuses", "label() is run as text; the functions it calls are the models, of which C92 and C93 tie the Punycode coder and the label tests to their text. The code of labels over 10^9 bytes is left out as in C64.")
claim("C97", "proved", "C97_returns C97_unicode C97_code C97_char C97_copy", "u8_to_u32, u32_strlen and the Punycode decoder are called as models; C92 ties the decoder to its text. The NULL input and failing allocations are in the models of C20 and C78 and not in this text.")
claim("C98", "proved", "C98_ulabel_returns C98_ulabel C98_ulabel_code C98_inner C98_alabel_returns C98_alabel C98_alabel_code", "The library calls and the label tests are called as models; C92 to C94 tie the Punycode coder and the tests to their texts. The dispatch for two NULL arguments and failing allocations are in the models of C19 and C46.")
claim("C99", "proved", "C99_nfc_returns C99_nfc C99_nfc_code C99_lookup C99_4i2_size C99_4i2_returns C99_4i2 C99_4i2_code C99_4z_returns C99_4z C99_4z_code C99_ul_returns C99_ul C99_ul_code C99_four C99_4i C99_4i_once", "idn2_lookup_u8 is called as a function whose values are those of its text (C95, C96); the conversions of libunistring are called as models. NULL inputs and failing allocations are in the models of C19 and C46.")
claim("C100", "proved", "C100_has C100_4z4z_returns C100_4z4z C100_4z4z_code C100_8z8z_returns C100_8z8z C100_8z8z_code C100_8zlz_returns C100_8zlz C100_8zlz_code C100_lzlz_returns C100_lzlz C100_lzlz_code", "idn2_to_unicode_8z4z is called as a function whose values are those of its text (C97); the conversions of libunistring are called as models or given as parameters. NULL inputs and failing allocations are in the models of C19 and C46.")
claim("C101", "proved", "C101_has C101_size C101_given C101_refused C101_either C101_once", "idn2_to_unicode_4z4z is called as a function whose values are those of its text (C100). A NULL input and failing allocations are in the models of C19 and C46.")
claim("C102", "proved", "C102_has C102_returns C102_registers C102_code", "idn2_register_u8 is called as a function whose values are those of its texts (C98); the conversion from the encoding of the locale is a parameter. Failing allocations are in the model of C46.")
C.sort(key=lambda c: int(c["property"][1:]))
json.dump({"claims": C}, open(os.path.join(os.path.dirname(__file__), "..", "MANIFEST.json"), "w"), indent=1)
