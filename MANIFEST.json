{
 "claims": [
  {
   "property": "C01",
   "status": "proved",
   "theorems": [
    "C01_utf32_round_trip"
   ],
   "note": "All code point sequences up to U+10FFFF, any length."
  },
  {
   "property": "C02",
   "status": "proved",
   "theorems": [
    "C02_from_utf32_is_rfc3629",
    "C02_from_utf32_char"
   ],
   "note": "Encoded/encodes are the RFC 3629 table written with / and mod."
  },
  {
   "property": "C03",
   "status": "proved",
   "theorems": [
    "C03_decode_next_exact"
   ],
   "note": "Exhaustive: a sequence starts here or not; result never UB."
  },
  {
   "property": "C04",
   "status": "proved",
   "theorems": [
    "C04_decode_prev_exact",
    "C04_decode_prev_undoes_decode_next"
   ],
   "note": "Exact on every position except after seven or more trailing continuation bytes, where the code has undefined behaviour (C05)."
  },
  {
   "property": "C05",
   "status": "partial",
   "theorems": [
    "C05_decode_prev_defined_refuted",
    "C05_decode_prev_defined_partial"
   ],
   "note": "Refuted: decode_prev shifts a 32-bit value by 36 after seven continuation bytes that do not start the string; the UB set is characterised exactly."
  },
  {
   "property": "C06",
   "status": "proved",
   "theorems": [
    "C06_decoders_agree"
   ],
   "note": "Text is the generalised (1-4 byte) grammar."
  },
  {
   "property": "C07",
   "status": "partial",
   "theorems": [
    "C07_is_valid_is_rfc3629_refuted",
    "C07_is_valid_is_rfc3629_partial",
    "C07_accepted",
    "C07_accepted_not_rfc"
   ],
   "note": "Refuted: overlong forms, encoded surrogates and values up to 0x1FFFFF are accepted. RFC-valid text is always accepted, and a complete RFC 3629 check is given in terms of to_utf32/from_utf32. C07_accepted says exactly which strings pass: the concatenations of the characters the decoder knows."
  },
  {
   "property": "C08",
   "status": "proved",
   "theorems": [
    "C08_bound_is_needed",
    "C08_boundaries_agree",
    "C08_boundaries_of_valid_text",
    "C08_boundaries_of_any_bytes"
   ],
   "note": "Proved for all byte strings shorter than 2^32-1; C08_bound_is_needed shows why: a 32-bit counter wraps in longer strings."
  },
  {
   "property": "C09",
   "status": "partial",
   "theorems": [
    "C09_count_codepoints_reports_invalid_refuted",
    "C09_count_codepoints_never_throws",
    "C09_count_codepoints_partial",
    "C09_count_any_bytes"
   ],
   "note": "Refuted: count_codepoints never throws. Exact on valid text; C09_count_any_bytes says what it counts in other byte strings."
  },
  {
   "property": "C10",
   "status": "proved",
   "theorems": [
    "C10_append_exact"
   ],
   "note": ""
  },
  {
   "property": "C11",
   "status": "proved",
   "theorems": [
    "C11_pop",
    "C11_remove"
   ],
   "note": "Exact on every byte string; the only undefined case is pop_last where backward decoding itself is undefined (C05), and that too is stated as an equivalence."
  },
  {
   "property": "C12",
   "status": "proved",
   "theorems": [
    "C12_contains",
    "C12_division"
   ],
   "note": ""
  },
  {
   "property": "C13",
   "status": "proved",
   "theorems": [
    "C13_starts_with",
    "C13_ends_with"
   ],
   "note": ""
  },
  {
   "property": "C14",
   "status": "proved",
   "theorems": [
    "C14_find_first"
   ],
   "note": ""
  },
  {
   "property": "C15",
   "status": "proved",
   "theorems": [
    "C15_find_last"
   ],
   "note": ""
  },
  {
   "property": "C16",
   "status": "proved",
   "theorems": [
    "C16_find_first_where",
    "C16_cases_exhaustive",
    "C16_find_first_of"
   ],
   "note": ""
  },
  {
   "property": "C17",
   "status": "proved",
   "theorems": [
    "C17_find_last_where",
    "C17_cases_exhaustive",
    "C17_find_last_of"
   ],
   "note": ""
  },
  {
   "property": "C18",
   "status": "proved",
   "theorems": [
    "C18_find_first_newline",
    "C18_any_memory"
   ],
   "note": "C18_find_first_newline is the clean statement (a zero directly follows the array); C18_any_memory is exact for every memory."
  },
  {
   "property": "C19",
   "status": "proved",
   "theorems": [
    "C19_find_last_newline",
    "C19_any_memory"
   ],
   "note": "C19_find_last_newline with a zero directly after the array, C19_any_memory for every memory."
  },
  {
   "property": "C20",
   "status": "partial",
   "theorems": [
    "C20_arrays_refuted",
    "C20_stray_character_refuted",
    "C20_arrays_partial",
    "C20_views",
    "C20_memory_cases"
   ],
   "note": "Refuted: the arrays NEWLINES / WHITESPACE are not zero terminated but are converted to a view through the pointer constructor, so stray characters after the array count, and without a zero the call is undefined. C20_arrays_partial says exactly what is used for every memory."
  },
  {
   "property": "C21",
   "status": "proved",
   "theorems": [
    "C21_one_division",
    "C21_all_functions_agree",
    "C21_malformed"
   ],
   "note": ""
  },
  {
   "property": "C22",
   "status": "proved",
   "theorems": [
    "C22_get_char_pos",
    "C22_both_ends",
    "C22_every_string",
    "C22_malformed",
    "C22_malformed_end"
   ],
   "note": ""
  },
  {
   "property": "C23",
   "status": "proved",
   "theorems": [
    "C23_get_char_range",
    "C23_malformed",
    "C23_malformed_end"
   ],
   "note": ""
  },
  {
   "property": "C24",
   "status": "proved",
   "theorems": [
    "C24_every_valid_string",
    "C24_every_string",
    "C24_pieces_of_valid_text",
    "C24_positions",
    "C24_both_ends_agree",
    "C24_most_negative"
   ],
   "note": "Exact for every index k; at PTRDIFF_MIN the code evaluates -pos (signed overflow), proved undefined in C24_most_negative."
  },
  {
   "property": "C25",
   "status": "proved",
   "theorems": [
    "C25_get_codepoint",
    "C25_malformed"
   ],
   "note": "Exact on every byte string; C25_malformed has the pieces that are no code points."
  },
  {
   "property": "C26",
   "status": "partial",
   "theorems": [
    "C26_substring_partial",
    "C26_last_partial",
    "C26_reversed_refuted",
    "C26_crossed_refuted"
   ],
   "note": "Exact when both indices have the same sign in order, or start >= 0 and end < 0 on non-crossing ranges; refuted parts: for reversed negative ranges and for crossed mixed-sign ranges the result is not the documented slice."
  },
  {
   "property": "C27",
   "status": "partial",
   "theorems": [
    "C27_substring_partial",
    "C27_reversed_refuted",
    "C27_crossed_exact_refuted",
    "C27_crossed_refuted",
    "C27_malformed",
    "C27_malformed_end",
    "C27_malformed_reversed",
    "C27_malformed_backwards",
    "C27_malformed_crossed"
   ],
   "note": "As C26, for characters (code point plus marks). Crossed ranges (start after end) are settled too: the exact result is C27_crossed_exact_refuted."
  },
  {
   "property": "C28",
   "status": "proved",
   "theorems": [
    "C28_insert_codepoint",
    "C28_insert_codepoints",
    "C28_out_of_range",
    "C28_no_codepoint"
   ],
   "note": "Exact, in and out of range; the documentation does not mention that inserting an empty text never throws."
  },
  {
   "property": "C29",
   "status": "proved",
   "theorems": [
    "C29_insert_char",
    "C29_insert_chars",
    "C29_out_of_range",
    "C29_no_codepoint",
    "C29_malformed",
    "C29_malformed_end"
   ],
   "note": "As C28, for characters."
  },
  {
   "property": "C30",
   "status": "partial",
   "theorems": [
    "C30_replace_codepoints_partial",
    "C30_replace_chars_partial",
    "C30_reversed_refuted",
    "C30_codepoints_crossed_refuted",
    "C30_chars_crossed_refuted",
    "C30_crossed_refuted",
    "C30_chars_malformed",
    "C30_chars_malformed_end",
    "C30_chars_malformed_reversed",
    "C30_chars_malformed_backwards",
    "C30_chars_malformed_crossed"
   ],
   "note": "Exact where the range is resolved correctly; reversed negative ranges are refuted and the exact result of every crossed range is C30_codepoints_crossed_refuted / C30_chars_crossed_refuted."
  },
  {
   "property": "C31",
   "status": "proved",
   "theorems": [
    "C31_replace_front",
    "C31_replace_front_unique",
    "C31_empty_pattern",
    "C31_empty_text"
   ],
   "note": "Exact for all patterns and counts >= 0."
  },
  {
   "property": "C32",
   "status": "proved",
   "theorems": [
    "C32_replace_back",
    "C32_replace_back_unique",
    "C32_empty_pattern",
    "C32_most_negative"
   ],
   "note": "Exact for every negative count; C32_most_negative: PTRDIFF_MIN is undefined."
  },
  {
   "property": "C33",
   "status": "proved",
   "theorems": [
    "C33_replace_codepoint",
    "C33_invalid_arguments",
    "C33_valid_text",
    "C33_overlong"
   ],
   "note": "C33_valid_text says exactly what happens on every valid text; C33_replace_codepoint is the clean statement for RFC 3629 text; C33_overlong shows that the overlong exception is real."
  },
  {
   "property": "C34",
   "status": "proved",
   "theorems": [
    "C34_replace_invalid_utf8",
    "C34_default",
    "C34_unique"
   ],
   "note": "Strings up to 4 GiB."
  },
  {
   "property": "C35",
   "status": "proved",
   "theorems": [
    "C35_reverse",
    "C35_twice",
    "C35_malformed",
    "C35_twice_example"
   ],
   "note": "Both parts exact for all valid strings."
  },
  {
   "property": "C36",
   "status": "proved",
   "theorems": [
    "C36_join_split",
    "C36_cuts",
    "C36_empty_separator"
   ],
   "note": ""
  },
  {
   "property": "C37",
   "status": "proved",
   "theorems": [
    "C37_split_codepoints",
    "C37_split_chars",
    "C37_cuts_exist",
    "C37_cuts_concat",
    "C37_malformed",
    "C37_malformed_limit",
    "C37_every_string"
   ],
   "note": ""
  },
  {
   "property": "C38",
   "status": "proved",
   "theorems": [
    "C38_split_lines",
    "C38_limited",
    "C38_cuts_exist",
    "C38_malformed",
    "C38_any_memory",
    "C38_any_memory_cuts_exist",
    "C38_every_string"
   ],
   "note": "C38_split_lines, C38_limited and C38_malformed with a zero directly after the array; C38_any_memory for every memory. Limited and unlimited splits, CR LF as one separator; malformed text throws."
  },
  {
   "property": "C39",
   "status": "proved",
   "theorems": [
    "C39_ignore_empty_any_finder",
    "C39_ignore_empty",
    "C39_limit"
   ],
   "note": "Exact for max_splits >= 1 and ignore_empty over any finder."
  },
  {
   "property": "C40",
   "status": "partial",
   "theorems": [
    "C40_partition",
    "C40_remainder",
    "C40_token_partial",
    "C40_token_refuted"
   ],
   "note": "The part/token partition is exact for every finder; token() returns the text from the token to the end of its part window, right only when it ends the text (refuted otherwise)."
  },
  {
   "property": "C41",
   "status": "proved",
   "theorems": [
    "C41_trim_chars",
    "C41_trim_where",
    "C41_division",
    "C41_start_any_bytes",
    "C41_end_any_bytes",
    "C41_any_bytes",
    "C41_any_cases"
   ],
   "note": "Exact on valid text, and on every byte string (C41_start_any_bytes, C41_end_any_bytes, C41_any_bytes; C41_any_cases shows these are all the cases; the undefined ones are in C82)."
  },
  {
   "property": "C42",
   "status": "proved",
   "theorems": [
    "C42_join"
   ],
   "note": ""
  },
  {
   "property": "C43",
   "status": "proved",
   "theorems": [
    "C43_case_mapping"
   ],
   "note": ""
  },
  {
   "property": "C44",
   "status": "proved",
   "theorems": [
    "C44_to_lower",
    "C44_to_upper",
    "C44_invalid_throws",
    "C44_idempotent"
   ],
   "note": ""
  },
  {
   "property": "C45",
   "status": "proved",
   "theorems": [
    "C45_to_title_unicode",
    "C45_to_title",
    "C45_idempotent",
    "C45_ideograph_example"
   ],
   "note": "C45_to_title with the library's letters on every text, C45_to_title_unicode with Unicode's; C45_ideograph_example shows the difference."
  },
  {
   "property": "C46",
   "status": "proved",
   "theorems": [
    "C46_lexicographic",
    "C46_zero",
    "C46_antisymmetric",
    "C46_transitive",
    "C46_total",
    "C46_malformed",
    "C46_difference",
    "C46_longer",
    "C46_cases"
   ],
   "note": ""
  },
  {
   "property": "C47",
   "status": "proved",
   "theorems": [
    "C47_equal",
    "C47_equal_text",
    "C47_equivalence"
   ],
   "note": ""
  },
  {
   "property": "C48",
   "status": "proved",
   "theorems": [
    "C48_less",
    "C48_strict_weak_order"
   ],
   "note": ""
  },
  {
   "property": "C49",
   "status": "proved",
   "theorems": [
    "C49_starts_with",
    "C49_ends_with",
    "C49_starts_malformed",
    "C49_ends_malformed",
    "C49_starts_differ",
    "C49_starts_stuck",
    "C49_starts_cases",
    "C49_ends_differ",
    "C49_ends_stuck",
    "C49_ends_cases"
   ],
   "note": "Valid text exact. Malformed text: characterised at the sequence next to the match (starts_with decodes one code point beyond the prefix and throws if it is malformed)."
  },
  {
   "property": "C50",
   "status": "proved",
   "theorems": [
    "C50_find_first",
    "C50_first_cases",
    "C50_find_last",
    "C50_last_cases",
    "C50_empty"
   ],
   "note": ""
  },
  {
   "property": "C51",
   "status": "proved",
   "theorems": [
    "C51_from_left",
    "C51_left_exists",
    "C51_from_right",
    "C51_right_exists",
    "C51_left_stuck",
    "C51_left_cases",
    "C51_right_stuck",
    "C51_right_cases",
    "C51_empty"
   ],
   "note": "All counts, including PTRDIFF_MIN."
  },
  {
   "property": "C52",
   "status": "proved",
   "theorems": [
    "C52_split",
    "C52_cuts_exist",
    "C52_parts",
    "C52_malformed",
    "C52_cases",
    "C52_empty_separator",
    "C52_split_chars",
    "C52_chars_exist",
    "C52_chars_malformed",
    "C52_chars_cases"
   ],
   "note": ""
  },
  {
   "property": "C53",
   "status": "partial",
   "theorems": [
    "C53_nothing_else",
    "C53_contains_partial",
    "C53_lost_refuted",
    "C53_reversed_refuted",
    "C53_wrap_refuted"
   ],
   "note": "A set never contains anything that was not added, after any calls. What was added is contained for every history of 32-bit additions, reversed ranges included, except when a range reversed by more than one is directly followed by the code point after its end, or a range ending at 0xFFFFFFFF directly by 0: then the code point (and in the second case the range) is lost, proved for all such histories."
  },
  {
   "property": "C54",
   "status": "partial",
   "theorems": [
    "C54_exact",
    "C54_case_of_argument",
    "C54_extends_partial",
    "C54_range_refuted",
    "C54_merged_refuted"
   ],
   "note": "Exact characterisation of case-insensitive membership; independence of the case of the argument proved; 'extends membership' holds for ranges on which upper-casing stays between the ends and is refuted otherwise ([A-z], and the two characters `a)."
  },
  {
   "property": "C55",
   "status": "partial",
   "theorems": [
    "C55_get_char_class_partial",
    "C55_ideographs_refuted",
    "C55_large_refuted",
    "C55_alias",
    "C55_beyond_unicode"
   ],
   "note": "Exact below 2^21 outside the eleven First/Last ideograph ranges; inside them every code point is refuted (class Cn instead of Lo); from 2^21 on the key aliases (refuted): the class is that of the 21 low bits or of the code point before (C55_alias). C55_beyond_unicode covers the values above 0x10FFFF."
  },
  {
   "property": "C56",
   "status": "partial",
   "theorems": [
    "C56_one_class",
    "C56_predicates",
    "C56_letters_partial",
    "C56_ideographs_refuted",
    "C56_alias_refuted",
    "C56_beyond_unicode",
    "C56_newline_hex",
    "C56_whitespace",
    "C56_white_space"
   ],
   "note": "All predicates exact below 2^21, except the letter/alphanumeric ones on the ideographs of C55 (refuted there). C56_beyond_unicode covers the values above 0x10FFFF whose 21 low bits are beyond Unicode, C56_alias_refuted all from 2^21 on: the answer is that for the 21 low bits or the code point before."
  },
  {
   "property": "C57",
   "status": "proved",
   "theorems": [
    "C57_json",
    "C57_valid"
   ],
   "note": ""
  },
  {
   "property": "C58",
   "status": "proved",
   "theorems": [
    "C58_roundtrip",
    "C58_injective"
   ],
   "note": ""
  },
  {
   "property": "C59",
   "status": "proved",
   "theorems": [
    "C59_find",
    "C59_has",
    "C59_beyond"
   ],
   "note": "Exact for every byte string and every offset; C59_beyond: offsets beyond the size are undefined."
  },
  {
   "property": "C60",
   "status": "partial",
   "theorems": [
    "C60_total",
    "C60_undefined",
    "C60_octal_refuted",
    "C60_short_u_refuted",
    "C60_large_x_refuted"
   ],
   "note": "Total (no loop) and an exact characterisation of the texts with undefined behaviour. Refuted as stated: \\0 at the end, \\u12 at the end, \\x123456789."
  },
  {
   "property": "C61",
   "status": "partial",
   "theorems": [
    "C61_result",
    "C61_throws",
    "C61_obstructed_refuted",
    "C61_beyond_refuted"
   ],
   "note": "Exact iff for results and for exceptions. Refuted as stated: a lone high surrogate followed within six bytes by the start of another escape is rejected; values above U+10FFFF vanish silently."
  },
  {
   "property": "C62",
   "status": "proved",
   "theorems": [
    "C62_in_place"
   ],
   "note": ""
  },
  {
   "property": "C63",
   "status": "partial",
   "theorems": [
    "C63_view",
    "C63_throw_refuted",
    "C63_throw"
   ],
   "note": "Exact. Refuted as stated: an exception after skipped backslash-newline pairs leaves the view behind them."
  },
  {
   "property": "C64",
   "status": "partial",
   "theorems": [
    "C64_agree_partial",
    "C64_exactly",
    "C64_newline_refuted",
    "C64_long_x_refuted",
    "C64_beyond_refuted",
    "C64_one_sided_refuted"
   ],
   "note": "Agreement proved for texts whose escapes both readers understand alike, and C64_exactly: where both succeed they agree on no other text, not even by chance. Refuted witnesses for each excluded kind (backslash-newline, more than eight \\x digits, values above U+10FFFF; one-sided exceptions)."
  },
  {
   "property": "C65",
   "status": "proved",
   "theorems": [
    "C65_iterate"
   ],
   "note": ""
  },
  {
   "property": "C66",
   "status": "partial",
   "theorems": [
    "C66_total",
    "C66_unique",
    "C66_decompose",
    "C66_four_refuted"
   ],
   "note": "Exact for decompositions of at most three elements; the 36 characters with four elements give the last two in reverse order (refuted)."
  },
  {
   "property": "C67",
   "status": "partial",
   "theorems": [
    "C67_result",
    "C67_malformed",
    "C67_never_returns_refuted",
    "C67_cases",
    "C67_example_refuted"
   ],
   "note": "Exact: C67_cases shows the three theorems cover every byte string. to_decomposed never returns once it meets one of the 36 four-element characters (refuted for those)."
  },
  {
   "property": "C68",
   "status": "partial",
   "theorems": [
    "C68_result",
    "C68_malformed",
    "C68_unchanged",
    "C68_lossless",
    "C68_last_lost_refuted",
    "C68_middle_lost_refuted"
   ],
   "note": "Exact result on every text, including which character is dropped. The plain claim (nothing is lost) is refuted; C68_lossless gives the condition under which it holds."
  },
  {
   "property": "C69",
   "status": "partial",
   "theorems": [
    "C69_two",
    "C69_pairs_partial",
    "C69_cases",
    "C69_missed_refuted",
    "C69_first_refuted",
    "C69_mixed_refuted"
   ],
   "note": "Exact via `composes`; the claim 'exactly the canonical pairs' is refuted: first characters from U+1000 on never compose, U+226E does not with adjacent tables, marks from U+100000 on alias to other pairs."
  },
  {
   "property": "C70",
   "status": "partial",
   "theorems": [
    "C70_undefined",
    "C70_cases",
    "C70_emoji_refuted"
   ],
   "note": "Exact characterisation of the inputs with undefined behaviour (iff), e.g. two emoji; the claim 'no undefined behaviour' is refuted."
  },
  {
   "property": "C71",
   "status": "partial",
   "theorems": [
    "C71_restored_partial",
    "C71_lost_refuted"
   ],
   "note": "Restored exactly if the first half is below U+1000 (and not U+226E with adjacent tables), proved as an iff; the unrestricted claim is refuted."
  },
  {
   "property": "C72",
   "status": "proved",
   "theorems": [
    "C72_find_first_of",
    "C72_find_last_of"
   ],
   "note": ""
  },
  {
   "property": "C73",
   "status": "proved",
   "theorems": [
    "C73_find_first_of_set",
    "C73_find_last_of_set",
    "C73_ci_find_first_of_set",
    "C73_ci_find_last_of_set"
   ],
   "note": ""
  },
  {
   "property": "C74",
   "status": "partial",
   "theorems": [
    "C74_find",
    "C74_cases",
    "C74_overhang_refuted",
    "C74_has"
   ],
   "note": "Exact for every byte string. Refuted: \\u, \\U and octal escapes cut off by the end are reported with a range reaching beyond the string."
  },
  {
   "property": "C75",
   "status": "proved",
   "theorems": [
    "C75_next"
   ],
   "note": ""
  },
  {
   "property": "C76",
   "status": "proved",
   "theorems": [
    "C76_idempotent"
   ],
   "note": ""
  },
  {
   "property": "C77",
   "status": "proved",
   "theorems": [
    "C77_equivalent",
    "C77_lost_example"
   ],
   "note": "Holds for lossless texts (C68) of code points below U+100000; C77_lost_example shows that the condition is needed."
  },
  {
   "property": "C78",
   "status": "proved",
   "theorems": [
    "C78_first",
    "C78_last",
    "C78_codepoints_first",
    "C78_codepoints_last",
    "C78_prefix_suffix"
   ],
   "note": "Exact in both directions for find_first from 0, find_last from the end, starts_with and ends_with; for other offsets the found range is proved to be on boundaries."
  },
  {
   "property": "C79",
   "status": "partial",
   "theorems": [
    "C79_case",
    "C79_trim",
    "C79_trim_where",
    "C79_reverse",
    "C79_split",
    "C79_split_chars",
    "C79_split_lines",
    "C79_join",
    "C79_append",
    "C79_replace",
    "C79_replace_codepoint",
    "C79_insert",
    "C79_substring_partial",
    "C79_replace_range_partial",
    "C79_substring_refuted",
    "C79_escape",
    "C79_unescape",
    "C79_unescape_rfc_partial",
    "C79_unescape_rfc_refuted",
    "C79_normalize",
    "C79_from_utf32"
   ],
   "note": "Refuted for get_codepoint_substring/replace_codepoints with a negative start and non-negative end, for get_char_substring/replace_chars with a non-negative start and a negative end (a code point is cut in two), and for unescape with RFC 3629 validity (\\uD800). Proved for every other argument of every function."
  },
  {
   "property": "C80",
   "status": "proved",
   "theorems": [
    "C80_decode",
    "C80_view",
    "C80_scan",
    "C80_search",
    "C80_codepoints",
    "C80_chars",
    "C80_split",
    "C80_replace",
    "C80_ignoring_case",
    "C80_indices",
    "C80_escape"
   ],
   "note": "Offsets are within the text (the code adds them to begin() unchecked), indices exclude PTRDIFF_MIN (std::abs), texts are shorter than 2^63 bytes; functions with a built-in character array need a zero somewhere behind it (C20: undefined otherwise). unescape, to_composed and to_decomposed are treated in C60, C70 and C67."
  },
  {
   "property": "C81",
   "status": "proved",
   "theorems": [
    "C81_ranges_from",
    "C81_ranges_before",
    "C81_positions",
    "C81_characters",
    "C81_pieces"
   ],
   "note": "For crossed code point ranges see C26/C27; get_codepoint_substring and get_char_substring still return a piece of the text."
  },
  {
   "property": "C82",
   "status": "partial",
   "theorems": [
    "C82_backward_defined_refuted",
    "C82_backward_search_partial",
    "C82_backward_positions_partial",
    "C82_backward_ignoring_case_partial",
    "C82_valid_text",
    "C82_search_exactly",
    "C82_trim_end_exactly",
    "C82_trim_exactly",
    "C82_reverse_exactly",
    "C82_position_exactly",
    "C82_character_before_exactly",
    "C82_ends_with_exactly",
    "C82_find_last_exactly",
    "C82_replace_exactly",
    "C82_range_exactly",
    "C82_insert_exactly",
    "C82_substring_exactly"
   ],
   "note": "Refuted: a text that ends with seven continuation bytes after some byte makes decode_prev shift by 36 bits. Proved for every byte string without seven continuation bytes in a row (after some byte), which includes every valid text; C82_..._exactly give the exact sets of undefined calls (iff) for searching, trimming, reverse, positions, the character before an offset, the functions with character indices, and ends_with / find_last / replace ignoring case."
  },
  {
   "property": "C83",
   "status": "proved",
   "theorems": [
    "C83_split_of_join",
    "C83_one_byte",
    "C83_chars",
    "C83_lines"
   ],
   "note": "Equivalences for every non-empty separator, for characters and for lines; lines may be joined with any newline, for every memory behind the newline array (C20)."
  },
  {
   "property": "C84",
   "status": "proved",
   "theorems": [
    "C84_replace_is_split_join",
    "C84_replace_by_itself",
    "C84_replace_absent",
    "C84_size"
   ],
   "note": "The empty pattern is excluded (C31, C32 have its result), and PTRDIFF_MIN (std::abs)."
  },
  {
   "property": "C85",
   "status": "proved",
   "theorems": [
    "C85_trim_laws",
    "C85_halves_any_bytes",
    "C85_any_bytes"
   ],
   "note": "On malformed text the two orders may differ in which failure is met first; C85_any_bytes is about what is returned."
  },
  {
   "property": "C86",
   "status": "proved",
   "theorems": [
    "C86_to_utf32",
    "C86_from_utf32",
    "C86_count_codepoints",
    "C86_case",
    "C86_title",
    "C86_escape_json"
   ],
   "note": "The first string must end between code points; C86_title: title case looks one code point back."
  },
  {
   "property": "C87",
   "status": "proved",
   "theorems": [
    "C87_lower",
    "C87_upper",
    "C87_title",
    "C87_same_upper",
    "C87_exceptions"
   ],
   "note": "All three are equivalences, so the exceptions are exact."
  },
  {
   "property": "C88",
   "status": "partial",
   "theorems": [
    "C88_subrange",
    "C88_subrange_injective",
    "C88_set",
    "C88_set_injective_partial",
    "C88_set_refuted"
   ],
   "note": "Sets: refuted, because '-' and '^' are printed without escape; proved injective when no '-' is an end of a range and no range starts with '^'. Streams in their default state (decimal, no width); other states are C133."
  },
  {
   "property": "C89",
   "status": "proved",
   "theorems": [
    "C89_sorted",
    "C89_search",
    "C89_same_element"
   ],
   "note": "The halving loop models the usual implementation of std::lower_bound; elsewhere in the model std::lower_bound is its specification, and C89_same_element connects the two."
  },
  {
   "property": "C90",
   "status": "partial",
   "theorems": [
    "C90_zero_replacements_refuted",
    "C90_zero_splits_refuted"
   ],
   "note": "Refuted for all of them: zero replacements means none, zero splits returns no part at all (the text is dropped)."
  },
  {
   "property": "C91",
   "status": "partial",
   "theorems": [
    "C91_offset_beyond_refuted",
    "C91_offset_sets_refuted",
    "C91_backward_offset",
    "C91_most_negative_refuted",
    "C91_most_negative_exactly",
    "C91_any_index_partial"
   ],
   "note": "Refuted: offsets beyond the size (undefined, and for the forward searches exactly then) and PTRDIFF_MIN where its absolute value is computed (C91_most_negative_exactly: for the functions on code points, exactly then). The other functions accept every index and count (partial: on texts without seven consecutive continuation bytes, C82)."
  },
  {
   "property": "C92",
   "status": "proved",
   "theorems": [
    "C92_equality",
    "C92_denotes_text",
    "C92_default"
   ],
   "note": "Exact."
  },
  {
   "property": "C93",
   "status": "proved",
   "theorems": [
    "C93_constants",
    "C93_masks",
    "C93_get_char_class"
   ],
   "note": "Exact; the ideographs of C55 are excluded there as well."
  },
  {
   "property": "C94",
   "status": "proved",
   "theorems": [
    "C94_compare_code_points",
    "C94_orders",
    "C94_bound_is_needed"
   ],
   "note": "C94_bound_is_needed: from 2^31 on the 32-bit difference changes sign."
  },
  {
   "property": "C95",
   "status": "proved",
   "theorems": [
    "C95_contains",
    "C95_starts_with",
    "C95_ends_with",
    "C95_first_and_last",
    "C95_search_code_point",
    "C95_search_last_code_point",
    "C95_split_code_point",
    "C95_insert_code_point",
    "C95_insert_char",
    "C95_insert_replace",
    "C95_insert_replace_chars",
    "C95_get_codepoint",
    "C95_get_char",
    "C95_counts"
   ],
   "note": "Index -1 is excluded from the substring clause, since no end index of get_codepoint_substring denotes the end of the text from there (C26); its first clauses hold for it. Positions in malformed text of 2^32 - 1 bytes or more are excluded (C08)."
  },
  {
   "property": "C96",
   "status": "proved",
   "theorems": [
    "C96_find_first",
    "C96_where",
    "C96_chars",
    "C96_newlines",
    "C96_ignoring_case",
    "C96_ignoring_case_chars",
    "C96_characters",
    "C96_pop",
    "C96_unique",
    "C96_unique_pops"
   ],
   "note": "Exact. find_last on strings is not covered by 'the same places': overlapping occurrences may be cut differently from the end."
  },
  {
   "property": "C97",
   "status": "proved",
   "theorems": [
    "C97_pattern",
    "C97_comparison",
    "C97_text",
    "C97_found",
    "C97_found_last",
    "C97_found_from",
    "C97_found_before"
   ],
   "note": "case_insensitive::equal true implies that both strings decode without error, so the hypothesis already requires text; the searched string of C97_pattern is arbitrary. For exchanged texts, offsets into texts of different encodings do not correspond, so C97_found_from and C97_found_before name the rest (or the part before the offset) that is exchanged."
  },
  {
   "property": "C98",
   "status": "proved",
   "theorems": [
    "C98_ends",
    "C98_find_first",
    "C98_find_last",
    "C98_chars",
    "C98_where"
   ],
   "note": "Complete."
  },
  {
   "property": "C99",
   "status": "proved",
   "theorems": [
    "C99_case",
    "C99_escape",
    "C99_unescape",
    "C99_decompose",
    "C99_compose",
    "C99_utf32",
    "C99_repair",
    "C99_reverse"
   ],
   "note": "Each factor is reached (examples). The bounds speak of results that are returned; C44, C60, C67 and C70 say when that is the case."
  },
  {
   "property": "C100",
   "status": "partial",
   "theorems": [
    "C100_twice_partial",
    "C100_idempotent",
    "C100_undefined_refuted"
   ],
   "note": "Partial because the claim is false as stated: proved for text below U+1D1BC; above it the second call may have undefined behaviour (C70), and that is the only exception (C100_twice_partial, C100_undefined_refuted)."
  },
  {
   "property": "C101",
   "status": "proved",
   "theorems": [
    "C101_never_found",
    "C101_never_equal",
    "C101_never_replaces",
    "C101_never_splits",
    "C101_starts_exact",
    "C101_ends_exact",
    "C101_first_exact",
    "C101_first_malformed",
    "C101_last_exact",
    "C101_last_malformed"
   ],
   "note": "The exact conditions for throwing are proved for every function but equal/compare (there C46); backwards the exactness theorems exclude runs of more than six continuation bytes, where the behaviour is undefined (C05)."
  },
  {
   "property": "C102",
   "status": "proved",
   "theorems": [
    "C102_forward",
    "C102_forward_case_insensitive",
    "C102_backward",
    "C102_backward_case_insensitive",
    "C102_beyond",
    "C102_between"
   ],
   "note": "Holds for arbitrary bytes and includes exceptions and undefined behaviour: both sides of each equation are the same outcome."
  },
  {
   "property": "C103",
   "status": "proved",
   "theorems": [
    "C103_parts",
    "C103_parts_chars",
    "C103_replace_by_itself",
    "C103_replace_by_itself_chars",
    "C103_replace_by_itself_any",
    "C103_replace_by_itself_chars_any",
    "C103_insert",
    "C103_insert_from_end",
    "C103_insert_codepoint",
    "C103_replace",
    "C103_replace_chars"
   ],
   "note": "Replacing by itself is stated for the sign combinations for which C26/C27/C30 hold; for the others the code gives a wrong slice."
  },
  {
   "property": "C104",
   "status": "proved",
   "theorems": [
    "C104_count_chars",
    "C104_concat",
    "C104_lower",
    "C104_upper",
    "C104_replace_codepoint",
    "C104_reverse"
   ],
   "note": "The counts are stated with char_count (Spec/Counts.v), defined from the category data, not from the library's tables."
  },
  {
   "property": "C105",
   "status": "proved",
   "theorems": [
    "C105_categories",
    "C105_classes",
    "C105_shipped",
    "C105_same_lookup",
    "C105_lookup"
   ],
   "note": "A range given by a First and a Last line counts as a range only if its last code point is one of the twelve in KnownRanges; that is how the script works and part of the statement (RowClass in Spec/TableRows.v). For Unicode 16 this leaves the ideograph ranges unassigned: see C55."
  },
  {
   "property": "C106",
   "status": "proved",
   "theorems": [
    "C106_mapping",
    "C106_shipped"
   ],
   "note": "ASCII arguments of to_upper, to_lower and to_title are handled without the table: see C43."
  },
  {
   "property": "C107",
   "status": "proved",
   "theorems": [
    "C107_decomposed",
    "C107_shipped",
    "C107_same_lookup"
   ],
   "note": "The rules are the input; C119 adds the reading of the file and the text of the header."
  },
  {
   "property": "C108",
   "status": "partial",
   "theorems": [
    "C108_listed_partial",
    "C108_next",
    "C108_first",
    "C108_end",
    "C108_wrong_refuted",
    "C108_same_lookup"
   ],
   "note": "False in general: the look-up compares 32 bits of a 40-bit key, so that a pair whose first element is U+1000 or above is not found and can be found under another pair, the first pair is missed if the two arrays are adjacent, and pairs after the last one read past the table. C108_next, C108_first and C108_end say exactly what happens for every rule list and every pair below U+1000000 / U+100000."
  },
  {
   "property": "C109",
   "status": "proved",
   "theorems": [
    "C109_find_first_where",
    "C109_find_last_where",
    "C109_trim_start_where",
    "C109_trim_end_where",
    "C109_trim_where",
    "C109_cases",
    "C109_split_where",
    "C109_token_iterator",
    "C109_pure"
   ],
   "note": "The state of a callback object is separate from all other state, because the functions copy the object: its own changes are lost when the function returns, other effects remain. Three exceptions stand for all (YstringException, std::out_of_range, any other with a tag). Backwards over seven or more continuation bytes that are not the whole text is undefined behaviour (C05) and excluded."
  },
  {
   "property": "C110",
   "status": "partial",
   "theorems": [
    "C110_first_partial",
    "C110_later_refuted"
   ],
   "note": "True before the first token (C110_first_partial). False afterwards: line 32 of TokenIterator.hpp shortens the text before the finder is called, and the old token stays, so that the next next() skips as many bytes again, or throws std::out_of_range for ever if there are not so many (C110_later_refuted gives the exact behaviour)."
  },
  {
   "property": "C111",
   "status": "partial",
   "theorems": [
    "C111_decode_next",
    "C111_decode_prev",
    "C111_char_refuted",
    "C111_pop",
    "C111_pop_last",
    "C111_append",
    "C111_flag",
    "C111_buffer_partial",
    "C111_buffer_refuted",
    "C111_buffer_ok"
   ],
   "note": "Iterators and views are restored (C111_decode_next, _prev, _pop, _pop_last), the string of append is unchanged. False: the character is overwritten with 0xFFFFFFFF (C111_char_refuted), the buffer of unescape(char*, size_t) holds the unescaped text up to the last escape sequence before the rejected one (C111_buffer_partial is exact, C111_buffer_refuted an instance), and unescape_next drops skipped backslash-newlines from the view (C63); C111_flag says what did_unescape holds. Four or more continuation bytes at the end are undefined behaviour (C05)."
  },
  {
   "property": "C112",
   "status": "partial",
   "theorems": [
    "C112_contents",
    "C112_inside",
    "C112_instances",
    "C112_trim_start",
    "C112_trim_end",
    "C112_trim",
    "C112_null_refuted",
    "C112_codepoint_substring_partial",
    "C112_char_substring_partial",
    "C112_codepoint_place",
    "C112_char_place",
    "C112_split_any_finder",
    "C112_split_sep",
    "C112_split_chars",
    "C112_split_lines",
    "C112_ci_split",
    "C112_ci_split_chars",
    "C112_order",
    "C112_iterator"
   ],
   "note": "A view is a null view or an offset and a length in the caller's array. False in two places: trim* returns a null view when nothing is left (C112_null_refuted), and TokenIterator's token and remainder are null views at the end (C112_iterator). Substrings: the text is the one asked for with the index pairs for which C26 and C27 hold (C112_..._substring_partial), the places are given for all pairs (C112_codepoint_place, C112_char_place)."
  },
  {
   "property": "C113",
   "status": "partial",
   "theorems": [
    "C113_same_outcomes",
    "C113_find",
    "C113_has",
    "C113_unescape_partial",
    "C113_no_digits",
    "C113_half_end",
    "C113_half_refuted",
    "C113_next",
    "C113_malformed",
    "C113_append",
    "C113_replace",
    "C113_insert_position",
    "C113_insert_codepoint"
   ],
   "note": "False in unescape for a bad sequence within six bytes after the first half of a surrogate pair: the offset named counts from the end of that half (C113_half_refuted is the exact behaviour, C113_half_ex an instance); \\u and \\U without digits at the end of the text are named themselves, without offset (C113_no_digits). C113_same_outcomes ties the model with messages to the one without. The other functions' messages are C126."
  },
  {
   "property": "C114",
   "status": "proved",
   "theorems": [
    "C114_split_chars",
    "C114_trim",
    "C114_title_split",
    "C114_title_trim",
    "C114_lines",
    "C114_split_separator",
    "C114_join",
    "C114_lower",
    "C114_upper",
    "C114_separators"
   ],
   "note": "C114_separators says which separators are respected; C114_exceptions_needed shows that each exception is needed (Kelvin sign becoming the separator k; U+00DF and U+0345 with reverse; to_title with reverse). The text split at a separator string must be in shortest form."
  },
  {
   "property": "C115",
   "status": "proved",
   "theorems": [
    "C115_concat",
    "C115_join",
    "C115_split_chars",
    "C115_trim",
    "C115_lines",
    "C115_split_separator",
    "C115_separators",
    "C115_count",
    "C115_chars"
   ],
   "note": "C115_separators gives the ASCII separators; C115_exceptions_needed shows that '=' and U+16D68 are real exceptions. The text split at a separator string must be in shortest form."
  },
  {
   "property": "C116",
   "status": "proved",
   "theorems": [
    "C116_lower",
    "C116_upper",
    "C116_lower_exceptions",
    "C116_upper_exceptions",
    "C116_lower_exactly",
    "C116_upper_exactly",
    "C116_equal"
   ],
   "note": "C116_lower_exceptions and C116_upper_exceptions show that the excepted code points really are exceptions; C116_not_title shows that nothing of the kind holds for to_title, which takes a combining mark for the end of a word."
  },
  {
   "property": "C117",
   "status": "proved",
   "theorems": [
    "C117_escaped_then_any",
    "C117_literal_then_any",
    "C117_concat",
    "C117_closed",
    "C117_template",
    "C117_all",
    "C117_iterate"
   ],
   "note": "C117_hex and C117_pair show that the excepted endings are real exceptions."
  },
  {
   "property": "C118",
   "status": "partial",
   "theorems": [
    "C118_expansion",
    "C118_unique",
    "C118_missing",
    "C118_alignment_refuted",
    "C118_values",
    "C118_column_refuted",
    "C118_one_row_refuted",
    "C118_parameters",
    "C118_unclosed",
    "C118_every",
    "C118_every_exists",
    "C118_every_unique"
   ],
   "note": "C118_expansion says exactly what is written for every line with at most one list of more than one element, with the blanks that the processor adds wrongly (Spec/Template.v); the wrong alignment is shown in C118_alignment_refuted (behind a line left out), C118_one_row_refuted (behind a list of one element in the same line) and C118_column_refuted (behind a value with line feeds). C118_values covers values which contain line feeds. IF, ELIF, ELSE, SET and the alignment markers are in C122. C118_parameters and C118_unclosed cover markers with parameters, which a dictionary ignores. C118_every, C118_every_exists and C118_every_unique: the same for every value and any number of lists in a line, so that with C118_missing the result is known for every template of plain lines."
  },
  {
   "property": "C119",
   "status": "proved",
   "theorems": [
    "C119_class_header",
    "C119_case_header",
    "C119_norm_header",
    "C119_one_reading",
    "C119_class_shipped",
    "C119_case_shipped",
    "C119_norm_shipped"
   ],
   "note": "Look-ups of compositions are those that C108 shows to succeed (first element below U+1000). An array may come out empty (no three mappings with one difference in a group of 32), which strict C++ does not accept; see C119_lower_sample."
  },
  {
   "property": "C120",
   "status": "partial",
   "theorems": [
    "C120_append_partial",
    "C120_append_invalid",
    "C120_damage",
    "C120_append_refuted",
    "C120_add_range",
    "C120_add_codepoint",
    "C120_add_codepoints_partial",
    "C120_add_codepoints_refuted",
    "C120_replace_invalid",
    "C120_enough"
   ],
   "note": "True of replace_invalid_utf8(std::string&), add_range and add_codepoint. False of append for code points of more than one byte: the bytes before the failing one stay, and the string is no longer valid UTF-8 (C120_append_partial is exact, C120_damage general, C120_append_refuted an instance); add_codepoints keeps the code points already added (C120_add_codepoints_partial is exact). Single push_back and emplace_back calls are assumed to have the standard's strong guarantee."
  },
  {
   "property": "C121",
   "status": "proved",
   "theorems": [
    "C121_nested",
    "C121_nested_chars",
    "C121_adjacent",
    "C121_adjacent_chars",
    "C121_from_end",
    "C121_from_end_chars",
    "C121_concat",
    "C121_concat_chars",
    "C121_position",
    "C121_position_chars"
   ],
   "note": "C121_mark shows why a combining mark at the start of the second text is excepted."
  },
  {
   "property": "C122",
   "status": "proved",
   "theorems": [
    "C122_blocks",
    "C122_blocks_empty",
    "C122_expansion",
    "C122_indented",
    "C122_every",
    "C122_every_indented",
    "C122_missing",
    "C122_balanced",
    "C122_set",
    "C122_append",
    "C122_set_later",
    "C122_align"
   ],
   "note": "C122_blocks is for block markers at the start of their lines; C122_indented for markers behind blanks, where the alignment bug of C118 can show. ELIF or a second ELSE behind ELSE is accepted by the program and not covered. C122_append with C122_set and C122_set_later cover SET between any blocks (not inside of one); alignment is for one marked column and any number of lines. C122_every and C122_every_indented: with every value and any number of lists in a line; C122_missing: a condition that is asked and not in the dictionary is an error."
  },
  {
   "property": "C123",
   "status": "partial",
   "theorems": [
    "C123_wrap_partial",
    "C123_width_partial",
    "C123_lost_refuted",
    "C123_long_refuted",
    "C123_first_unused"
   ],
   "note": "With an empty separator and a non-empty newline_sep strings can be lost (C123_lost_refuted), and if newline_sep is more than one character longer than sep, lines can be too long (C123_long_refuted); the partial theorems cover the rest. first_sep and first_newline_sep are never used (C123_first_unused)."
  },
  {
   "property": "C124",
   "status": "proved",
   "theorems": [
    "C124_variable_name",
    "C124_macro_name",
    "C124_unique",
    "C124_idempotent"
   ],
   "note": "Python's Unicode white space and upper() beyond ASCII are not modelled."
  },
  {
   "property": "C125",
   "status": "partial",
   "theorems": [
    "C125_scan",
    "C125_view",
    "C125_where",
    "C125_newlines",
    "C125_trim",
    "C125_codepoints",
    "C125_chars",
    "C125_insert_codepoint",
    "C125_insert_char",
    "C125_split",
    "C125_split_lines",
    "C125_replace",
    "C125_ignoring_case",
    "C125_ignoring_case_find",
    "C125_ignoring_case_split",
    "C125_normalize",
    "C125_bytes",
    "C125_rejected",
    "C125_rfc",
    "C125_case_partial",
    "C125_case_refuted",
    "C125_replace_codepoints_partial",
    "C125_replace_codepoints_refuted"
   ],
   "note": "Returning or throwing only; that normalising may loop or read outside its buffers is C67 and C70. C125_case_refuted and C125_replace_codepoints_refuted show the two exceptions, the partial theorems the rest."
  },
  {
   "property": "C126",
   "status": "proved",
   "theorems": [
    "C126_decoding",
    "C126_searching",
    "C126_trimming",
    "C126_splitting",
    "C126_characters",
    "C126_case_insensitive",
    "C126_normalizing",
    "C126_case",
    "C126_case_malformed",
    "C126_case_large",
    "C126_insert"
   ],
   "note": "Together with C113 every throw of the library is covered. Predicates and finders passed by the caller are taken as functions that do not throw (C84, C112 have those that do)."
  },
  {
   "property": "C127",
   "status": "partial",
   "theorems": [
    "C127_form_total",
    "C127_form_unique",
    "C127_exactly_partial",
    "C127_same_partial",
    "C127_left_refuted",
    "C127_order_refuted",
    "C127_angstrom_refuted"
   ],
   "note": "Form D, canonical order and equivalence are specified from the standard (Spec/NormalForms.v) over UnicodeData's columns 3 and 5 and the Hangul arithmetic; totality and uniqueness of form D are proved. Partial: the English claim is false of the code; what is proved is exactly when it holds, and that every singleton and every Hangul syllable violates it. to_decomposed does not return at all on texts with four-element decompositions (C67)."
  },
  {
   "property": "C128",
   "status": "partial",
   "theorems": [
    "C128_relation",
    "C128_decomposed",
    "C128_composed",
    "C128_small_partial",
    "C128_refuted"
   ],
   "note": "to_decomposed: proved for every text. to_composed: proved to hold exactly when no character is lost (C68) and no code point from U+100000 on is dropped (C69); for code points below U+100000 exactly when no character is lost. C128_refuted has an example of each. Where to_composed is undefined: C70."
  },
  {
   "property": "C129",
   "status": "partial",
   "theorems": [
    "C129_calls",
    "C129_exactly",
    "C129_refused",
    "C129_blocks",
    "C129_watched",
    "C129_dictionary",
    "C129_function",
    "C129_values",
    "C129_method",
    "C129_set",
    "C129_set_nothing",
    "C129_untaken",
    "C129_column_refuted"
   ],
   "note": "Model/Expanders.v is the processor of Codegen.v over an abstract expander with a state; C129_dictionary proves that with the dictionary expander it is that of Codegen.v. Partial because the number in the context is not the column behind a line that is left out (C129_column_refuted). Simplified: methods do not change attributes, and the attributes that every Python object has are left out. C129_exactly says for every value, and every expander, exactly when templates of plain lines are expanded, into what and with which calls; C129_refused is the case of an exception."
  },
  {
   "property": "C130",
   "status": "proved",
   "theorems": [
    "C130_from_utf32",
    "C130_to_utf32",
    "C130_upper"
   ],
   "note": "C130_needs_shortest and C130_needs_no_sharp_s show that both restrictions are needed. What std::string's operator< does (lexicographic, unsigned bytes) is the lex of Spec/CaseFold.v."
  },
  {
   "property": "C131",
   "status": "proved",
   "theorems": [
    "C131_replace_front",
    "C131_replace_back",
    "C131_split",
    "C131_join",
    "C131_trim",
    "C131_unique"
   ],
   "note": "The operations on sequences are the relations and functions of Spec/Sequences.v, over lists of anything; C131_unique says that they determine the result. Ignoring empty parts is C39."
  },
  {
   "property": "C132",
   "status": "proved",
   "theorems": [
    "C132_starts_with",
    "C132_ends_with",
    "C132_contains",
    "C132_find_first",
    "C132_find_last",
    "C132_count",
    "C132_position",
    "C132_get_codepoint",
    "C132_substring_and_replace",
    "C132_insert",
    "C132_case",
    "C132_groups",
    "C132_count_chars",
    "C132_char_position",
    "C132_char_substring_and_replace",
    "C132_char_insert",
    "C132_reverse"
   ],
   "note": "absent, absent_before, absent_after and groups are in Spec/Sequences.v, resolve in Spec/Slices.v; C132_groups: every sequence falls into groups."
  },
  {
   "property": "C133",
   "status": "proved",
   "theorems": [
    "C133_subrange",
    "C133_set",
    "C133_not_good",
    "C133_injective",
    "C133_default"
   ],
   "note": "The inserters of the standard library for char, const char*, std::string and size_t are modelled in Model/Stream.v as the standard describes them, in the classic locale and with an exceptions() mask of 0."
  },
  {
   "property": "C134",
   "status": "proved",
   "theorems": [
    "C134_pop_all",
    "C134_any_chunks",
    "C134_to_utf32",
    "C134_held_back"
   ],
   "note": "The user's program is Spec/Chunks.v, on the model of pop_utf8_codepoint that keeps the view when it throws."
  },
  {
   "property": "C135",
   "status": "proved",
   "theorems": [
    "C135_list_back",
    "C135_injective",
    "C135_one_byte"
   ],
   "note": "Splits without limit, keeping empty parts."
  },
  {
   "property": "C136",
   "status": "proved",
   "theorems": [
    "C136_two_sets",
    "C136_trim_first",
    "C136_go_on_sep",
    "C136_go_on_chars",
    "C136_go_on_lines",
    "C136_go_on_ci_sep",
    "C136_go_on_ci_chars"
   ],
   "note": "ci split: separators that are valid UTF-8 and not empty (the others: C52, C101)."
  },
  {
   "property": "C137",
   "status": "proved",
   "theorems": [
    "C137_predicates",
    "C137_exception",
    "C137_case",
    "C137_unchanged_lower",
    "C137_unchanged_upper",
    "C137_all_upper",
    "C137_all_lower",
    "C137_places_lower",
    "C137_places_upper"
   ],
   "note": "The predicates meant are listed in Spec/CaseClasses.v: all but is_upper and is_lower."
  },
  {
   "property": "C138",
   "status": "proved",
   "theorems": [
    "C138_uniform",
    "C138_unchanged",
    "C138_same"
   ],
   "note": "Joined text and original text must be shorter than 2^63 bytes (the largest std::string); no other restriction."
  },
  {
   "property": "C139",
   "status": "proved",
   "theorems": [
    "C139_replace_is_split_join",
    "C139_same_but_for_case",
    "C139_uniform",
    "C139_split_alike",
    "C139_replace_alike"
   ],
   "note": "Strings must be shorter than 2^63 bytes (the largest std::string)."
  },
  {
   "property": "C140",
   "status": "proved",
   "theorems": [
    "C140_codepoints",
    "C140_upper_lower",
    "C140_lower_upper",
    "C140_upper_title",
    "C140_lower_title",
    "C140_title_lower",
    "C140_title_upper",
    "C140_malformed"
   ],
   "note": ""
  },
  {
   "property": "C141",
   "status": "proved",
   "theorems": [
    "C141_words",
    "C141_every_text",
    "C141_trim",
    "C141_concat",
    "C141_uniform",
    "C141_same"
   ],
   "note": "Strings must be shorter than 2^63 bytes (the largest std::string)."
  },
  {
   "property": "C142",
   "status": "proved",
   "theorems": [
    "C142_undo",
    "C142_injective",
    "C142_gone",
    "C142_codepoints"
   ],
   "note": "Strings must be shorter than 2^63 bytes (the largest std::string); the number of replacements must not be the most negative one (C32)."
  },
  {
   "property": "C143",
   "status": "proved",
   "theorems": [
    "C143_ends",
    "C143_document",
    "C143_injective",
    "C143_finders",
    "C143_any_json"
   ],
   "note": "Strings must be shorter than 2^63 bytes (the largest std::string)."
  },
  {
   "property": "C144",
   "status": "proved",
   "theorems": [
    "C144_exists",
    "C144_append",
    "C144_starts",
    "C144_find",
    "C144_find_chars",
    "C144_replace",
    "C144_trim",
    "C144_trim_chars",
    "C144_split",
    "C144_join"
   ],
   "note": "Strings must be shorter than 2^63 bytes (the largest std::string)."
  },
  {
   "property": "C145",
   "status": "proved",
   "theorems": [
    "C145_two",
    "C145_any_number",
    "C145_codepoints",
    "C145_chars"
   ],
   "note": "The text and everything inserted must together be shorter than 2^63 bytes; counting from the end needs edits that remove something and leave something behind them."
  },
  {
   "property": "C146",
   "status": "proved",
   "theorems": [
    "C146_stages",
    "C146_stages_text",
    "C146_placeholder",
    "C146_independent"
   ],
   "note": "Strings must be shorter than 2^63 bytes (the largest std::string)."
  },
  {
   "property": "C147",
   "status": "proved",
   "theorems": [
    "C147_find_first",
    "C147_find_last",
    "C147_find_first_chars",
    "C147_find_last_chars",
    "C147_find_first_of",
    "C147_find_last_of",
    "C147_any_piece"
   ],
   "note": "Strings must be shorter than 2^63 bytes (the largest std::string)."
  },
  {
   "property": "C148",
   "status": "proved",
   "theorems": [
    "C148_table",
    "C148_bytes",
    "C148_escaped",
    "C148_injective",
    "C148_pairs"
   ],
   "note": "Strings must be shorter than 2^63 bytes (the largest std::string)."
  },
  {
   "property": "C149",
   "status": "proved",
   "theorems": [
    "C149_codepoints",
    "C149_order",
    "C149_inside",
    "C149_chars",
    "C149_chars_order",
    "C149_chars_inside"
   ],
   "note": "Strings must be shorter than 2^63 bytes (the largest std::string)."
  },
  {
   "property": "C150",
   "status": "proved",
   "theorems": [
    "C150_cut",
    "C150_back",
    "C150_line",
    "C150_column"
   ],
   "note": "Strings must be shorter than 2^63 bytes (the largest std::string)."
  }
 ]
}