{
 "claims": [
  {
   "property": "C01",
   "status": "proved",
   "theorems": [
    "C01_encode_decode"
   ],
   "note": "Unconditional up to 110 code points; beyond that the only other outcome is PUNYCODE_OVERFLOW."
  },
  {
   "property": "C02",
   "status": "proved",
   "theorems": [
    "C02_decode_encode",
    "C02_decode_injective"
   ],
   "note": "Claimed buffer size below 2^32-1."
  },
  {
   "property": "C03",
   "status": "proved",
   "theorems": [
    "C03_encode_safe"
   ],
   "note": ""
  },
  {
   "property": "C04",
   "status": "proved",
   "theorems": [
    "C04_C05_decode_safe",
    "C04_decode_large_buffer_refuted"
   ],
   "note": "Holds for claimed sizes below 2^32-1; a size of 2^32-1 is shown to be unsafe. No caller in the library passes more than 63."
  },
  {
   "property": "C05",
   "status": "proved",
   "theorems": [
    "C04_C05_decode_safe"
   ],
   "note": ""
  },
  {
   "property": "C06",
   "status": "proved",
   "theorems": [
    "C06_encode_shape"
   ],
   "note": ""
  },
  {
   "property": "C07",
   "status": "proved",
   "theorems": [
    "C07_lookup_shape"
   ],
   "note": "For every Unicode database whose NFC satisfies the five laws of nfc_ok (SpecNfc.v)."
  },
  {
   "property": "C08",
   "status": "proved",
   "theorems": [
    "C08_lookup_safe"
   ],
   "note": "For every Unicode database whose NFC satisfies the five laws of nfc_ok (SpecNfc.v)."
  },
  {
   "property": "C09",
   "status": "proved",
   "theorems": [
    "C09_idempotent"
   ],
   "note": "For every Unicode database whose NFC satisfies the five laws of nfc_ok (SpecNfc.v)."
  },
  {
   "property": "C10",
   "status": "proved",
   "theorems": [
    "C10_idempotent_no_roundtrip_refuted"
   ],
   "note": "Witness: u-umlaut followed by '!'."
  },
  {
   "property": "C11",
   "status": "proved",
   "theorems": [
    "C11_unicode_of_result",
    "C11_unicode_of_prepared",
    "C11_and_back",
    "C11_back_transitional_refuted",
    "C11_back_std3_mapped_refuted",
    "C11_upper_ace_refuted"
   ],
   "note": "For every Unicode database whose NFC satisfies the five laws of nfc_ok (SpecNfc.v). The restrictions on the way back are necessary: see the refutations."
  },
  {
   "property": "C12",
   "status": "proved",
   "theorems": [
    "C12_ascii_passthrough"
   ],
   "note": "For every Unicode database whose NFC satisfies the five laws of nfc_ok (SpecNfc.v)."
  },
  {
   "property": "C13",
   "status": "proved",
   "theorems": [
    "C13_ascii_lowered",
    "C13_ascii_unaltered_refuted"
   ],
   "note": "For every Unicode database whose NFC satisfies the five laws of nfc_ok (SpecNfc.v)."
  },
  {
   "property": "C14",
   "status": "proved",
   "theorems": [
    "C14_case_insensitive"
   ],
   "note": "For every Unicode database whose NFC satisfies the five laws of nfc_ok (SpecNfc.v)."
  },
  {
   "property": "C15",
   "status": "proved",
   "theorems": [
    "C15_dots_ignored"
   ],
   "note": "For every Unicode database whose NFC satisfies the five laws of nfc_ok (SpecNfc.v)."
  },
  {
   "property": "C16",
   "status": "proved",
   "theorems": [
    "C16_invalid_flags",
    "C16_name_not_examined"
   ],
   "note": ""
  },
  {
   "property": "C17",
   "status": "proved",
   "theorems": [
    "C17_nontransitional_default",
    "C17_roundtrip_default",
    "C17_unassigned_inert",
    "C17_std3_inert_no_tr46",
    "C17_unknown_bits_inert"
   ],
   "note": "No condition on the Unicode database."
  },
  {
   "property": "C18",
   "status": "proved",
   "theorems": [
    "C18_tr46_implies_nfc"
   ],
   "note": "For every Unicode database whose NFC satisfies the five laws of nfc_ok (SpecNfc.v)."
  },
  {
   "property": "C19",
   "status": "proved",
   "theorems": [
    "C19_null_input",
    "C19_null_output",
    "C19_4i_null",
    "C19_4i_null_output",
    "C19_44i_null",
    "C19_44i_null_output"
   ],
   "note": "For any locale conversion."
  },
  {
   "property": "C20",
   "status": "proved",
   "theorems": [
    "C20_8z8z_null",
    "C20_null_input_refuted"
   ],
   "note": ""
  },
  {
   "property": "C21",
   "status": "proved",
   "theorems": [
    "C21_agree",
    "C21_unencodable",
    "C21_embedded_zero",
    "C21_locale",
    "C21_locale_unconvertible",
    "C21_locale_8z"
   ],
   "note": "For any locale conversion."
  },
  {
   "property": "C22",
   "status": "proved",
   "theorems": [
    "C22_4i",
    "C22_4i_fail",
    "C22_4i_unencodable",
    "C22_4i_safe",
    "C22_4i_terminated_refuted"
   ],
   "note": "For every Unicode database whose NFC satisfies the five laws of nfc_ok (SpecNfc.v)."
  },
  {
   "property": "C23",
   "status": "proved",
   "theorems": [
    "C23_labelwise"
   ],
   "note": "An exact characterisation."
  },
  {
   "property": "C24",
   "status": "proved",
   "theorems": [
    "C24_safe_bounded",
    "C24_documented_codes_refuted"
   ],
   "note": "The Punycode codes are not in the documented list."
  },
  {
   "property": "C25",
   "status": "proved",
   "theorems": [
    "C25_44i",
    "C25_44i_safe",
    "C25_44i_embedded_zero",
    "C25_truncation_silent"
   ],
   "note": ""
  },
  {
   "property": "C26",
   "status": "proved",
   "theorems": [
    "C26_4z4z",
    "C26_4z4z_unencodable",
    "C26_8z8z",
    "C26_8zlz",
    "C26_8zlz_fail",
    "C26_lzlz",
    "C26_all_encodable_refuted"
   ],
   "note": ""
  },
  {
   "property": "C27",
   "status": "proved",
   "theorems": [
    "C27_idempotent_refuted",
    "C27_injective_refuted",
    "C27_idempotent_without_ace"
   ],
   "note": ""
  },
  {
   "property": "C28",
   "status": "proved",
   "theorems": [
    "C28_sound",
    "C28_shape",
    "C28_complete",
    "C28_normalises_refuted"
   ],
   "note": "For every Unicode database whose NFC satisfies the five laws of nfc_ok (SpecNfc.v). With IDN2_NFC_INPUT also nfc_no_ldh: NFC turns no other string into letters, digits and hyphens."
  },
  {
   "property": "C29",
   "status": "proved",
   "theorems": [
    "C29_alabel",
    "C29_mismatch",
    "C29_not_alabel"
   ],
   "note": "For every Unicode database whose NFC satisfies the five laws of nfc_ok (SpecNfc.v)."
  },
  {
   "property": "C30",
   "status": "proved",
   "theorems": [
    "C30_round_trip"
   ],
   "note": "For every Unicode database whose NFC satisfies the five laws of nfc_ok (SpecNfc.v)."
  },
  {
   "property": "C31",
   "status": "proved",
   "theorems": [
    "C31_ascii"
   ],
   "note": "No condition on the Unicode database."
  },
  {
   "property": "C32",
   "status": "proved",
   "theorems": [
    "C32_codes",
    "C32_locale",
    "C32_pointers",
    "C32_untouched"
   ],
   "note": "For every Unicode database whose NFC satisfies the five laws of nfc_ok (SpecNfc.v). Out-of-bounds accesses are a separate outcome of the model, excluded here; memory management apart."
  },
  {
   "property": "C33",
   "status": "proved",
   "theorems": [
    "C33_bidi_exact",
    "C33_bidi_total",
    "C33_bidi_complete"
   ],
   "note": ""
  },
  {
   "property": "C34",
   "status": "proved",
   "theorems": [
    "C34_bidi_rule4_refuted",
    "C34_bidi_rule3_refuted",
    "C34_bidi_gap"
   ],
   "note": "The gap against RFC 5893 is also bounded from above."
  },
  {
   "property": "C35",
   "status": "proved",
   "theorems": [
    "C35_contextj"
   ],
   "note": ""
  },
  {
   "property": "C36",
   "status": "proved",
   "theorems": [
    "C36_contexto",
    "C36_rules_complete"
   ],
   "note": ""
  },
  {
   "property": "C37",
   "status": "proved",
   "theorems": [
    "C37_property",
    "C37_csv_functional",
    "C37_generator"
   ],
   "note": "The generator theorem covers every sorted CSV file."
  },
  {
   "property": "C38",
   "status": "proved",
   "theorems": [
    "C38_tr46_table",
    "C38_tr46_outside",
    "C38_rows_functional",
    "C38_nfcqc"
   ],
   "note": "The byte tables are computed inside Coq by the transcribed generator from the rows of the data files and then validated."
  },
  {
   "property": "C39",
   "status": "proved",
   "theorems": [
    "C39_mapping",
    "C39_disallowed",
    "C39_too_big",
    "C39_not_utf8",
    "C39_only_mapping_matters"
   ],
   "note": "For every Unicode database whose NFC satisfies the five laws of nfc_ok (SpecNfc.v)."
  },
  {
   "property": "C40",
   "status": "proved",
   "theorems": [
    "C40_mapping_stable"
   ],
   "note": "For the shipped IdnaMappingTable.txt."
  },
  {
   "property": "C41",
   "status": "proved",
   "theorems": [
    "C41_nfc_quick_check",
    "C41_nfc_input",
    "C41_no_nfc_input",
    "C41_not_utf8",
    "C41_nfc_input_supplementary_refuted",
    "C41_unicode_data"
   ],
   "note": ""
  },
  {
   "property": "C42",
   "status": "proved",
   "theorems": [
    "C42_label_test_ok",
    "C42_label_test_fail",
    "C42_label_test_safe"
   ],
   "note": ""
  },
  {
   "property": "C43",
   "status": "proved",
   "theorems": [
    "C43_accepted_tests"
   ],
   "note": "For every Unicode database whose NFC satisfies the five laws of nfc_ok (SpecNfc.v)."
  },
  {
   "property": "C44",
   "status": "proved",
   "theorems": [
    "C44_no_upper_case"
   ],
   "note": "For every Unicode database whose NFC satisfies the five laws of nfc_ok (SpecNfc.v)."
  },
  {
   "property": "C45",
   "status": "proved",
   "theorems": [
    "C45_utf8_decode",
    "C45_utf8_encode",
    "C45_utf8_inverse",
    "C45_utf8_domain"
   ],
   "note": "libunistring conversions are modelled from their documentation."
  },
  {
   "property": "C46",
   "status": "proved",
   "theorems": [
    "C46_bytes",
    "C46_wide",
    "C46_register",
    "C46_register_ul",
    "C46_4i",
    "C46_44i",
    "C46_bytes_exact",
    "C46_wide_exact",
    "C46_register_exact",
    "C46_bytes_tidy",
    "C46_wide_tidy",
    "C46_register_tidy",
    "C46_4i_tidy",
    "C46_44i_tidy",
    "C46_free",
    "C46_any_errno_refuted"
   ],
   "note": "For every Unicode database whose NFC satisfies the five laws of nfc_ok (SpecNfc.v). libunistring conversions are one allocation each; the code returned after a failure assumes that free keeps errno, the rest does not."
  },
  {
   "property": "C47",
   "status": "proved",
   "theorems": [
    "C47_untouched",
    "C47_delivers",
    "C47_4i_untouched",
    "C47_44i_untouched"
   ],
   "note": "Registration: see C32."
  },
  {
   "property": "C48",
   "status": "proved",
   "theorems": [
    "C48_names",
    "C48_names_distinct",
    "C48_names_refuted",
    "C48_messages",
    "C48_messages_fit",
    "C48_messages_refuted",
    "C48_lookup_explained",
    "C48_others_explained"
   ],
   "note": "The two gaps are stated as refutations."
  },
  {
   "property": "C49",
   "status": "proved",
   "theorems": [
    "C49_releases",
    "C49_order",
    "C49_total_order"
   ],
   "note": "strverscmp is external (glibc/gnulib); its published algorithm is transcribed."
  },
  {
   "property": "C50",
   "status": "proved",
   "theorems": [
    "C50_session",
    "C50_session_unique",
    "C50_flags",
    "C50_stdin_like_arguments",
    "C50_complaints",
    "C50_debug_refuted"
   ],
   "note": "For every Unicode database whose NFC satisfies the five laws of nfc_ok (SpecNfc.v). The option parser is generated by gengetopt and not modelled; locale conversion is assumed to yield C strings."
  },
  {
   "property": "C51",
   "status": "proved",
   "theorems": [
    "C51_decode_rfc3492"
   ],
   "note": "Against an independent relational transcription of RFC 3492 in unbounded integers."
  },
  {
   "property": "C52",
   "status": "proved",
   "theorems": [
    "C52_error_codes"
   ],
   "note": "For every Unicode database whose NFC satisfies the five laws of nfc_ok (SpecNfc.v)."
  },
  {
   "property": "C53",
   "status": "proved",
   "theorems": [
    "C53_decode_exact"
   ],
   "note": ""
  },
  {
   "property": "C54",
   "status": "proved",
   "theorems": [
    "C54_locals_set"
   ],
   "note": ""
  },
  {
   "property": "C55",
   "status": "proved",
   "theorems": [
    "C55_lookup",
    "C55_registered",
    "C55_transitional_refuted"
   ],
   "note": "For every Unicode database whose NFC satisfies the five laws of nfc_ok (SpecNfc.v)."
  },
  {
   "property": "C56",
   "status": "proved",
   "theorems": [
    "C56_mapping",
    "C56_unlisted",
    "C56_quick_check",
    "C56_shipped",
    "C56_crossing_refuted",
    "C56_meeting_refuted"
   ],
   "note": "The files are given as rows; C62 is about their text."
  },
  {
   "property": "C57",
   "status": "proved",
   "theorems": [
    "C57_encode_exact",
    "C57_encoding_unique"
   ],
   "note": ""
  },
  {
   "property": "C58",
   "status": "proved",
   "theorems": [
    "C58_lookup_exact",
    "C58_refusal",
    "C58_api",
    "C58_unicode14",
    "C58_unique"
   ],
   "note": "For every Unicode database whose NFC satisfies the five laws of nfc_ok (SpecNfc.v). C58_unicode14 is for the Unicode 14 database and needs no condition."
  },
  {
   "property": "C59",
   "status": "proved",
   "theorems": [
    "C59_no_roundtrip_more"
   ],
   "note": "For every Unicode database whose NFC satisfies the five laws of nfc_ok (SpecNfc.v)."
  },
  {
   "property": "C60",
   "status": "proved",
   "theorems": [
    "C60_transitional_agrees",
    "C60_transitional_exact",
    "C60_converse_refuted",
    "C60_deviation_refuted"
   ],
   "note": "For every Unicode database whose NFC satisfies the five laws of nfc_ok (SpecNfc.v)."
  },
  {
   "property": "C61",
   "status": "proved",
   "theorems": [
    "C61_std3_agrees",
    "C61_std3_exact",
    "C61_converse_refuted"
   ],
   "note": "For every Unicode database whose NFC satisfies the five laws of nfc_ok (SpecNfc.v)."
  },
  {
   "property": "C62",
   "status": "proved",
   "theorems": [
    "C62_mapping_file",
    "C62_props_file",
    "C62_csv_file",
    "C62_text_to_table",
    "C62_shipped",
    "C62_library_map",
    "C62_library_property",
    "C62_long_lines_refuted",
    "C62_malformed_refuted"
   ],
   "note": "fgets, isspace, strpbrk, strtok and sscanf are transcribed; the generated arrays are the result, not their C text. Lines of at most 1022 bytes; the refuted theorems show what happens outside the format."
  },
  {
   "property": "C63",
   "status": "proved",
   "theorems": [
    "C63_compose",
    "C63_absolute",
    "C63_bidi_domain_refuted",
    "C63_empty_label_refuted"
   ],
   "note": "For every Unicode database whose NFC satisfies the five laws of nfc_ok (SpecNfc.v). The refuted theorems show what treating labels alone lets through."
  },
  {
   "property": "C64",
   "status": "proved",
   "theorems": [
    "C64_explained",
    "C64_refused",
    "C64_exact",
    "C64_unique",
    "C64_accept_or_refuse",
    "C64_raw_first",
    "C64_first_label_refuted"
   ],
   "note": "For every Unicode database whose NFC satisfies the five laws of nfc_ok (SpecNfc.v). For names of more than 10^9 bytes without TR46 it is not specified which of PUNYCODE_BIG_OUTPUT and PUNYCODE_OVERFLOW is reported."
  },
  {
   "property": "C65",
   "status": "proved",
   "theorems": [
    "C65_rfc_decodes_unique",
    "C65_sound",
    "C65_complete",
    "C65_bidi_refuted",
    "C65_std3_refuted",
    "C65_mapped_refuted",
    "C65_joiners_refuted",
    "C65_empty_refuted",
    "C65_characters_refuted",
    "C65_length_refuted"
   ],
   "note": "For every Unicode database whose NFC satisfies the five laws of nfc_ok (SpecNfc.v). The refutations show which conditions of the two theorems cannot be left out."
  },
  {
   "property": "C66",
   "status": "proved",
   "theorems": [
    "C66_exact",
    "C66_explained",
    "C66_refused",
    "C66_refused_exact",
    "C66_unique",
    "C66_accept_or_refuse"
   ],
   "note": "For every Unicode database whose NFC satisfies the five laws of nfc_ok (SpecNfc.v). For U-labels of more than 10^9 bytes it is not specified which of PUNYCODE_BIG_OUTPUT and PUNYCODE_OVERFLOW is reported."
  },
  {
   "property": "C67",
   "status": "proved",
   "theorems": [
    "C67_decode",
    "C67_encode",
    "C67_decode_unique",
    "C67_encode_unique",
    "C67_decode_partition",
    "C67_encode_partition"
   ],
   "note": "The encoder for room of at most 109 bytes (callers: 59) and labels of at most 4172415000 code points."
  },
  {
   "property": "C68",
   "status": "proved",
   "theorems": [
    "C68_8z4z",
    "C68_8z8z",
    "C68_4z4z",
    "C68_44i",
    "C68_nonzero",
    "C68_unique",
    "C68_partition"
   ],
   "note": "malloc succeeds; the locale variants add only their conversions (C26)."
  },
  {
   "property": "C69",
   "status": "proved",
   "theorems": [
    "C69_same_iff",
    "C69_same_form",
    "C69_no_roundtrip_refuted",
    "C69_upper_ace_refuted"
   ],
   "note": "For every Unicode database whose NFC satisfies the five laws of nfc_ok (SpecNfc.v)."
  },
  {
   "property": "C70",
   "status": "proved",
   "theorems": [
    "C70_nfc_flag"
   ],
   "note": "For every Unicode database whose NFC satisfies the five laws of nfc_ok (SpecNfc.v)."
  },
  {
   "property": "C71",
   "status": "proved",
   "theorems": [
    "C71_agrees",
    "C71_mapping_refuted",
    "C71_validity_refuted",
    "C71_alabel_validity_refuted"
   ],
   "note": "For parameters under which A-labels of ASCII strings are refused, as the library does."
  },
  {
   "property": "C72",
   "status": "proved",
   "theorems": [
    "C72_tr46map_data",
    "C72_tr46map_total",
    "C72_data",
    "C72_unchecked_refuted",
    "C72_shipped_data",
    "C72_shipped_tr46map"
   ],
   "note": "C is read by a small reader of declarations written after C11 (SpecCText); arrays of size 0 and empty initializers are accepted as by GNU C."
  },
  {
   "property": "C73",
   "status": "proved",
   "theorems": [
    "C73_lookup",
    "C73_lookup_tr46",
    "C73_lookup_unicode14",
    "C73_to_unicode",
    "C73_encode",
    "C73_decode",
    "C73_register_alabel",
    "C73_register_ulabel",
    "C73_register_linear_refuted"
   ],
   "note": "The counting functions c_f (Step.v) are proved to compute the model's results; the constants are not tight."
  },
  {
   "property": "C74",
   "status": "proved",
   "theorems": [
    "C74_register",
    "C74_to_ascii",
    "C74_to_unicode",
    "C74_to_unicode_refuted",
    "C74_alabel_cut",
    "C74_alabel_refuted"
   ],
   "note": "As stated, with the exceptions refuted by witness."
  },
  {
   "property": "C75",
   "status": "proved",
   "theorems": [
    "C75_lookup",
    "C75_decode",
    "C75_register",
    "C75_toascii",
    "C75_tounicode",
    "C75_last_character_lost",
    "C75_long_line",
    "C75_nul_inside",
    "C75_others_cut",
    "C75_nul_first_undefined",
    "C75_no_input",
    "C75_every_input"
   ],
   "note": "printf calls are recorded with format and arguments; the formatting is not modelled."
  },
  {
   "property": "C76",
   "status": "proved",
   "theorems": [
    "C76_wire",
    "C76_unique",
    "C76_exact",
    "C76_distinct",
    "C76_distinct_refuted",
    "C76_wire_refuted"
   ],
   "note": "An empty label inside a name is the exception; the root name \".\" is left out."
  },
  {
   "property": "C77",
   "status": "proved",
   "theorems": [
    "C77_result",
    "C77_result_std3",
    "C77_ulabel",
    "C77_hyphen_refuted",
    "C77_contexto_refuted",
    "C77_std3_refuted",
    "C77_transitional_refuted"
   ],
   "note": ""
  },
  {
   "property": "C78",
   "status": "proved",
   "theorems": [
    "C78_bytes",
    "C78_wide",
    "C78_register",
    "C78_register_ul",
    "C78_4i",
    "C78_44i",
    "C78_fixed_quota_refuted"
   ],
   "note": "For every Unicode database whose NFC satisfies the five laws of nfc_ok (SpecNfc.v). (its bound on the length of the normal form is used). Memory is counted in elements of the strings, each libunistring conversion as one block of the size of its result; free keeps errno."
  },
  {
   "property": "C79",
   "status": "proved",
   "theorems": [
    "C79_host_names",
    "C79_unicode14",
    "C79_ascii_result",
    "C79_ascii_exact",
    "C79_refuses_refuted",
    "C79_no_flag_refuted",
    "C79_no_tr46_refuted",
    "C79_nonempty_refuted"
   ],
   "note": "For every Unicode database whose NFC satisfies the five laws of nfc_ok (SpecNfc.v).; C79_unicode14 and C79_ascii_exact assume nothing."
  },
  {
   "property": "C80",
   "status": "proved",
   "theorems": [
    "C80_code",
    "C80_defined",
    "C80_no_race",
    "C80_hands_off",
    "C80_ends",
    "C80_no_deadlock",
    "C80_result",
    "C80_memory",
    "C80_no_leak"
   ],
   "note": "For every Unicode database whose NFC satisfies the five laws of nfc_ok (SpecNfc.v).; errno is per thread, and the functions of libunistring and the C library are thread safe; C80_ends and C80_code assume nothing."
  },
  {
   "property": "C81",
   "status": "proved",
   "theorems": [
    "C81_macros",
    "C81_expands",
    "C81_unambiguous",
    "C81_libidn_flags",
    "C81_other_flags_refuted",
    "C81_length_refuted"
   ],
   "note": "For every Unicode database whose NFC satisfies the five laws of nfc_ok (SpecNfc.v). (C81_macros, C81_libidn_flags); the grammar is that of C11 6.5 for these operators."
  },
  {
   "property": "C82",
   "status": "proved",
   "theorems": [
    "C82_wraps",
    "C82_same",
    "C82_growth",
    "C82_growth_reached",
    "C82_64",
    "C82_32",
    "C82_32_refuted",
    "C82_std3",
    "C82_no_tr46",
    "C82_arrays",
    "C82_arrays_refuted",
    "C82_44i",
    "C82_44i_limit"
   ],
   "note": "No hypothesis on the Unicode database. Sums of sizes already compared with 63 or 255 are not reduced; memory is taken to suffice."
  },
  {
   "property": "C83",
   "status": "proved",
   "theorems": [
    "C83_nfc",
    "C83_nfc_itself",
    "C83_nfd",
    "C83_mapping",
    "C83_lookup",
    "C83_accepted",
    "C83_normalised",
    "C83_allowed",
    "C83_iota_refuted",
    "C83_nfc_first_refuted",
    "C83_std3_refuted",
    "C83_disallowed_refuted",
    "C83_length_refuted"
   ],
   "note": "For the Unicode 14 data of DataUcd.v."
  },
  {
   "property": "C84",
   "status": "proved",
   "theorems": [
    "C84_mapping",
    "C84_lookup",
    "C84_case",
    "C84_compat",
    "C84_canon",
    "C84_odd",
    "C84_sharp_s_refuted",
    "C84_dotless_i_refuted"
   ],
   "note": "For the Unicode 14 data of DataUcd.v and DataCase.v; case mappings without context (a capital sigma becomes a small sigma everywhere)."
  },
  {
   "property": "C85",
   "status": "proved",
   "theorems": [
    "C85_lookup",
    "C85_register",
    "C85_lookup_accepted",
    "C85_register_accepted",
    "C85_twins",
    "C85_twin_refuted",
    "C85_supplementary_refuted",
    "C85_alabel_refuted"
   ],
   "note": "For the Unicode 14 data of DataUcd.v."
  },
  {
   "property": "C86",
   "status": "proved",
   "theorems": [
    "C86_lookup",
    "C86_register",
    "C86_upgrade",
    "C86_register_upgrade",
    "C86_error_refuted",
    "C86_nfc_refuted",
    "C86_older_refuted"
   ],
   "note": "The database is the parameter uenv of the model."
  },
  {
   "property": "C87",
   "status": "proved",
   "theorems": [
    "C87_exact",
    "C87_refusal",
    "C87_again",
    "C87_stable",
    "C87_transitional",
    "C87_memory",
    "C87_tidy",
    "C87_compose_refuted",
    "C87_order_refuted",
    "C87_bidi_refuted"
   ],
   "note": "The manual's program is modelled as a client of the API."
  },
  {
   "property": "C88",
   "status": "proved",
   "theorems": [
    "C88_lower",
    "C88_mixed_case",
    "C88_to_plain",
    "C88_from_plain",
    "C88_hyphens_refuted",
    "C88_upper_refuted",
    "C88_std3_refuted"
   ],
   "note": "For IDN2_NO_TR46 without IDN2_NFC_INPUT where that lookup is the premise; C70 says when that option matters."
  },
  {
   "property": "C89",
   "status": "proved",
   "theorems": [
    "C89_text",
    "C89_run",
    "C89_read_back",
    "C89_off",
    "C89_empty_refuted"
   ],
   "note": "Of the two runs that C89_read_back compares the locales are the same. The line with the charset and the greeting stand before the names and are kept apart as events."
  },
  {
   "property": "C90",
   "status": "proved",
   "theorems": [
    "C90_again",
    "C90_plain",
    "C90_unchecked",
    "C90_never_other",
    "C90_std3_refuted",
    "C90_transitional_refuted",
    "C90_plain_refuted"
   ],
   "note": "The same flags twice are C09, IDN2_NO_TR46 first and UTS 46 second is C88."
  },
  {
   "property": "C91",
   "status": "proved",
   "theorems": [
    "C91_forms",
    "C91_names",
    "C91_sources",
    "C91_parents",
    "C91_parents_unchecked_refuted"
   ],
   "note": "Equality of results instead of the relation 'below' is C69; the flags with IDN2_NO_TR46 need that the result has no A-label prefix in capitals, as there."
  },
  {
   "property": "C92",
   "status": "proved",
   "theorems": [
    "C92_decode_defined",
    "C92_decode",
    "C92_decode_codes",
    "C92_encode_defined",
    "C92_encode",
    "C92_encode_codes",
    "C92_model",
    "C92_round_trip",
    "C92_claimed_size_refuted",
    "C92_order"
   ],
   "note": "The exact characterisations are for output sizes up to 109, as in C53 and C57; C92_model has no such limit. The three arrays are assumed not to overlap, as in all callers."
  },
  {
   "property": "C93",
   "status": "proved",
   "theorems": [
    "C93_bidi",
    "C93_contextj",
    "C93_contexto",
    "C93_outside",
    "C93_label_test",
    "C93_isNFC",
    "C93_ascii",
    "C93_model",
    "C93_order"
   ],
   "note": "The tables (tables.c, tr46map.c) and libunistring are called through Gallina functions. The case ENOMEM of u32_normalize is left to C46."
  },
  {
   "property": "C94",
   "status": "proved",
   "theorems": [
    "C94_property",
    "C94_classes",
    "C94_idna_map",
    "C94_outside",
    "C94_nfcqc",
    "C94_label_classes",
    "C94_label_maps",
    "C94_label_nfcqc",
    "C94_bsearch",
    "C94_order"
   ],
   "note": "The arrays are the generated ones of Tables.v and Tr46Tables.v. Structures are one array per member."
  },
  {
   "property": "C95",
   "status": "proved",
   "theorems": [
    "C95_default_flags",
    "C95_strncasecmp",
    "C95_tr46_count",
    "C95_tr46_write",
    "C95_tr46_labels",
    "C95_tr46_labels_all",
    "C95_name_done",
    "C95_name_error",
    "C95_name_long",
    "C95_name_all",
    "C95_label_like",
    "C95_accepts",
    "C95_refuses",
    "C95_order"
   ],
   "note": "The parts between malloc, u32_normalize and u32_to_u8 are run separately; lookup_text puts them together. label() is any function keeping to its buffer, or the model."
  },
  {
   "property": "C96",
   "status": "proved",
   "theorems": [
    "C96_returns",
    "C96_label",
    "C96_label_code",
    "C96_accepts",
    "C96_refuses"
   ],
   "note": "label() is run as text; the functions it calls are the models, of which C92 and C93 tie the Punycode coder and the label tests to their text. The code of labels over 10^9 bytes is left out as in C64."
  },
  {
   "property": "C97",
   "status": "proved",
   "theorems": [
    "C97_returns",
    "C97_unicode",
    "C97_code",
    "C97_char",
    "C97_copy"
   ],
   "note": "u8_to_u32, u32_strlen and the Punycode decoder are called as models; C92 ties the decoder to its text. The NULL input and failing allocations are in the models of C20 and C78 and not in this text."
  },
  {
   "property": "C98",
   "status": "proved",
   "theorems": [
    "C98_ulabel_returns",
    "C98_ulabel",
    "C98_ulabel_code",
    "C98_inner",
    "C98_alabel_returns",
    "C98_alabel",
    "C98_alabel_code"
   ],
   "note": "The library calls and the label tests are called as models; C92 to C94 tie the Punycode coder and the tests to their texts. The dispatch for two NULL arguments and failing allocations are in the models of C19 and C46."
  },
  {
   "property": "C99",
   "status": "proved",
   "theorems": [
    "C99_nfc_returns",
    "C99_nfc",
    "C99_nfc_code",
    "C99_lookup",
    "C99_4i2_size",
    "C99_4i2_returns",
    "C99_4i2",
    "C99_4i2_code",
    "C99_4z_returns",
    "C99_4z",
    "C99_4z_code",
    "C99_ul_returns",
    "C99_ul",
    "C99_ul_code",
    "C99_four",
    "C99_4i",
    "C99_4i_once"
   ],
   "note": "idn2_lookup_u8 is called as a function whose values are those of its text (C95, C96); the conversions of libunistring are called as models. NULL inputs and failing allocations are in the models of C19 and C46."
  },
  {
   "property": "C100",
   "status": "proved",
   "theorems": [
    "C100_has",
    "C100_4z4z_returns",
    "C100_4z4z",
    "C100_4z4z_code",
    "C100_8z8z_returns",
    "C100_8z8z",
    "C100_8z8z_code",
    "C100_8zlz_returns",
    "C100_8zlz",
    "C100_8zlz_code",
    "C100_lzlz_returns",
    "C100_lzlz",
    "C100_lzlz_code"
   ],
   "note": "idn2_to_unicode_8z4z is called as a function whose values are those of its text (C97); the conversions of libunistring are called as models or given as parameters. NULL inputs and failing allocations are in the models of C19 and C46."
  },
  {
   "property": "C101",
   "status": "proved",
   "theorems": [
    "C101_has",
    "C101_size",
    "C101_given",
    "C101_refused",
    "C101_either",
    "C101_once"
   ],
   "note": "idn2_to_unicode_4z4z is called as a function whose values are those of its text (C100). A NULL input and failing allocations are in the models of C19 and C46."
  },
  {
   "property": "C102",
   "status": "proved",
   "theorems": [
    "C102_has",
    "C102_returns",
    "C102_registers",
    "C102_code"
   ],
   "note": "idn2_register_u8 is called as a function whose values are those of its texts (C98); the conversion from the encoding of the locale is a parameter. Failing allocations are in the model of C46."
  }
 ]
}