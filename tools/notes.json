{
 "C01": "All code point sequences up to U+10FFFF, any length.",
 "C02": "Encoded/encodes are the RFC 3629 table written with / and mod.",
 "C03": "Exhaustive: a sequence starts here or not; result never UB.",
 "C04": "Exact on every position except after seven or more trailing continuation bytes, where the code has undefined behaviour (C05).",
 "C05": "Refuted: decode_prev shifts a 32-bit value by 36 after seven continuation bytes that do not start the string; the UB set is characterised exactly.",
 "C06": "Text is the generalised (1-4 byte) grammar.",
 "C07": "Refuted: overlong forms, encoded surrogates and values up to 0x1FFFFF are accepted. RFC-valid text is always accepted, and a complete RFC 3629 check is given in terms of to_utf32/from_utf32. C07_accepted says exactly which strings pass: the concatenations of the characters the decoder knows.",
 "C08": "Proved for all byte strings shorter than 2^32-1; C08_bound_is_needed shows why: a 32-bit counter wraps in longer strings.",
 "C09": "Refuted: count_codepoints never throws. Exact on valid text; C09_count_any_bytes says what it counts in other byte strings.",
 "C11": "Exact on every byte string; the only undefined case is pop_last where backward decoding itself is undefined (C05), and that too is stated as an equivalence.",
 "C18": "C18_find_first_newline is the clean statement (a zero directly follows the array); C18_any_memory is exact for every memory.",
 "C19": "C19_find_last_newline with a zero directly after the array, C19_any_memory for every memory.",
 "C20": "Refuted: the arrays NEWLINES / WHITESPACE are not zero terminated but are converted to a view through the pointer constructor, so stray characters after the array count, and without a zero the call is undefined. C20_arrays_partial says exactly what is used for every memory.",
 "C24": "Exact for every index k; at PTRDIFF_MIN the code evaluates -pos (signed overflow), proved undefined in C24_most_negative.",
 "C26": "Exact when both indices have the same sign in order, or start >= 0 and end < 0 on non-crossing ranges; refuted parts: for reversed negative ranges and for crossed mixed-sign ranges the result is not the documented slice.",
 "C27": "As C26, for characters (code point plus marks). Crossed ranges (start after end) are settled too: the exact result is C27_crossed_exact_refuted.",
 "C28": "Exact, in and out of range; the documentation does not mention that inserting an empty text never throws.",
 "C29": "As C28, for characters.",
 "C30": "Exact where the range is resolved correctly; reversed negative ranges are refuted and the exact result of every crossed range is C30_codepoints_crossed_refuted / C30_chars_crossed_refuted.",
 "C31": "Exact for all patterns and counts >= 0.",
 "C32": "Exact for every negative count; C32_most_negative: PTRDIFF_MIN is undefined.",
 "C33": "C33_valid_text says exactly what happens on every valid text; C33_replace_codepoint is the clean statement for RFC 3629 text; C33_overlong shows that the overlong exception is real.",
 "C34": "Strings up to 4 GiB.",
 "C35": "Both parts exact for all valid strings.",
 "C38": "C38_split_lines, C38_limited and C38_malformed with a zero directly after the array; C38_any_memory for every memory. Limited and unlimited splits, CR LF as one separator; malformed text throws.",
 "C39": "Exact for max_splits >= 1 and ignore_empty over any finder.",
 "C40": "The part/token partition is exact for every finder; token() returns the text from the token to the end of its part window, right only when it ends the text (refuted otherwise).",
 "C45": "C45_to_title with the library's letters on every text, C45_to_title_unicode with Unicode's; C45_ideograph_example shows the difference.",
 "C49": "Valid text exact. Malformed text: characterised at the sequence next to the match (starts_with decodes one code point beyond the prefix and throws if it is malformed).",
 "C51": "All counts, including PTRDIFF_MIN.",
 "C53": "A set never contains anything that was not added, after any calls. What was added is contained for every history of 32-bit additions, reversed ranges included, except when a range reversed by more than one is directly followed by the code point after its end, or a range ending at 0xFFFFFFFF directly by 0: then the code point (and in the second case the range) is lost, proved for all such histories.",
 "C54": "Exact characterisation of case-insensitive membership; independence of the case of the argument proved; 'extends membership' holds for ranges on which upper-casing stays between the ends and is refuted otherwise ([A-z], and the two characters `a).",
 "C55": "Exact below 2^21 outside the eleven First/Last ideograph ranges; inside them every code point is refuted (class Cn instead of Lo); from 2^21 on the key aliases (refuted): the class is that of the 21 low bits or of the code point before (C55_alias). C55_beyond_unicode covers the values above 0x10FFFF.",
 "C56": "All predicates exact below 2^21, except the letter/alphanumeric ones on the ideographs of C55 (refuted there). C56_beyond_unicode covers the values above 0x10FFFF whose 21 low bits are beyond Unicode, C56_alias_refuted all from 2^21 on: the answer is that for the 21 low bits or the code point before.",
 "C59": "Exact for every byte string and every offset; C59_beyond: offsets beyond the size are undefined.",
 "C60": "Total (no loop) and an exact characterisation of the texts with undefined behaviour. Refuted as stated: \\0 at the end, \\u12 at the end, \\x123456789.",
 "C61": "Exact iff for results and for exceptions. Refuted as stated: a lone high surrogate followed within six bytes by the start of another escape is rejected; values above U+10FFFF vanish silently.",
 "C63": "Exact. Refuted as stated: an exception after skipped backslash-newline pairs leaves the view behind them.",
 "C64": "Agreement proved for texts whose escapes both readers understand alike, and C64_exactly: where both succeed they agree on no other text, not even by chance. Refuted witnesses for each excluded kind (backslash-newline, more than eight \\x digits, values above U+10FFFF; one-sided exceptions).",
 "C66": "Exact for decompositions of at most three elements; the 36 characters with four elements give the last two in reverse order (refuted).",
 "C67": "Exact: C67_cases shows the three theorems cover every byte string. to_decomposed never returns once it meets one of the 36 four-element characters (refuted for those).",
 "C68": "Exact result on every text, including which character is dropped. The plain claim (nothing is lost) is refuted; C68_lossless gives the condition under which it holds.",
 "C69": "Exact via `composes`; the claim 'exactly the canonical pairs' is refuted: first characters from U+1000 on never compose, U+226E does not with adjacent tables, marks from U+100000 on alias to other pairs.",
 "C70": "Exact characterisation of the inputs with undefined behaviour (iff), e.g. two emoji; the claim 'no undefined behaviour' is refuted.",
 "C71": "Restored exactly if the first half is below U+1000 (and not U+226E with adjacent tables), proved as an iff; the unrestricted claim is refuted.",
 "C74": "Exact for every byte string. Refuted: \\u, \\U and octal escapes cut off by the end are reported with a range reaching beyond the string.",
 "C77": "Holds for lossless texts (C68) of code points below U+100000; C77_lost_example shows that the condition is needed.",
 "C78": "Exact in both directions for find_first from 0, find_last from the end, starts_with and ends_with; for other offsets the found range is proved to be on boundaries.",
 "C79": "Refuted for get_codepoint_substring/replace_codepoints with a negative start and non-negative end, for get_char_substring/replace_chars with a non-negative start and a negative end (a code point is cut in two), and for unescape with RFC 3629 validity (\\uD800). Proved for every other argument of every function.",
 "C80": "Offsets are within the text (the code adds them to begin() unchecked), indices exclude PTRDIFF_MIN (std::abs), texts are shorter than 2^63 bytes; functions with a built-in character array need a zero somewhere behind it (C20: undefined otherwise). unescape, to_composed and to_decomposed are treated in C60, C70 and C67.",
 "C81": "For crossed code point ranges see C26/C27; get_codepoint_substring and get_char_substring still return a piece of the text.",
 "C82": "Refuted: a text that ends with seven continuation bytes after some byte makes decode_prev shift by 36 bits. Proved for every byte string without seven continuation bytes in a row (after some byte), which includes every valid text; C82_..._exactly give the exact sets of undefined calls (iff) for searching, trimming, reverse, positions, the character before an offset, the functions with character indices, and ends_with / find_last / replace ignoring case.",
 "C83": "Equivalences for every non-empty separator, for characters and for lines; lines may be joined with any newline, for every memory behind the newline array (C20).",
 "C84": "The empty pattern is excluded (C31, C32 have its result), and PTRDIFF_MIN (std::abs).",
 "C85": "On malformed text the two orders may differ in which failure is met first; C85_any_bytes is about what is returned.",
 "C86": "The first string must end between code points; C86_title: title case looks one code point back.",
 "C87": "All three are equivalences, so the exceptions are exact.",
 "C88": "Sets: refuted, because '-' and '^' are printed without escape; proved injective when no '-' is an end of a range and no range starts with '^'. Streams in their default state (decimal, no width); other states are C133.",
 "C89": "The halving loop models the usual implementation of std::lower_bound; elsewhere in the model std::lower_bound is its specification, and C89_same_element connects the two.",
 "C90": "Refuted for all of them: zero replacements means none, zero splits returns no part at all (the text is dropped).",
 "C91": "Refuted: offsets beyond the size (undefined, and for the forward searches exactly then) and PTRDIFF_MIN where its absolute value is computed (C91_most_negative_exactly: for the functions on code points, exactly then). The other functions accept every index and count (partial: on texts without seven consecutive continuation bytes, C82).",
 "C92": "Exact.",
 "C93": "Exact; the ideographs of C55 are excluded there as well.",
 "C94": "C94_bound_is_needed: from 2^31 on the 32-bit difference changes sign.",
 "C25": "Exact on every byte string; C25_malformed has the pieces that are no code points.",
 "C95": "Index -1 is excluded from the substring clause, since no end index of get_codepoint_substring denotes the end of the text from there (C26); its first clauses hold for it. Positions in malformed text of 2^32 - 1 bytes or more are excluded (C08).",
 "C96": "Exact. find_last on strings is not covered by 'the same places': overlapping occurrences may be cut differently from the end.",
 "C97": "case_insensitive::equal true implies that both strings decode without error, so the hypothesis already requires text; the searched string of C97_pattern is arbitrary. For exchanged texts, offsets into texts of different encodings do not correspond, so C97_found_from and C97_found_before name the rest (or the part before the offset) that is exchanged.",
 "C98": "Complete.",
 "C99": "Each factor is reached (examples). The bounds speak of results that are returned; C44, C60, C67 and C70 say when that is the case.",
 "C100": "Partial because the claim is false as stated: proved for text below U+1D1BC; above it the second call may have undefined behaviour (C70), and that is the only exception (C100_twice_partial, C100_undefined_refuted).",
 "C101": "The exact conditions for throwing are proved for every function but equal/compare (there C46); backwards the exactness theorems exclude runs of more than six continuation bytes, where the behaviour is undefined (C05).",
 "C102": "Holds for arbitrary bytes and includes exceptions and undefined behaviour: both sides of each equation are the same outcome.",
 "C103": "Replacing by itself is stated for the sign combinations for which C26/C27/C30 hold; for the others the code gives a wrong slice.",
 "C104": "The counts are stated with char_count (Spec/Counts.v), defined from the category data, not from the library's tables.",
 "C105": "A range given by a First and a Last line counts as a range only if its last code point is one of the twelve in KnownRanges; that is how the script works and part of the statement (RowClass in Spec/TableRows.v). For Unicode 16 this leaves the ideograph ranges unassigned: see C55.",
 "C106": "ASCII arguments of to_upper, to_lower and to_title are handled without the table: see C43.",
 "C107": "The rules are the input; C119 adds the reading of the file and the text of the header.",
 "C108": "False in general: the look-up compares 32 bits of a 40-bit key, so that a pair whose first element is U+1000 or above is not found and can be found under another pair, the first pair is missed if the two arrays are adjacent, and pairs after the last one read past the table. C108_next, C108_first and C108_end say exactly what happens for every rule list and every pair below U+1000000 / U+100000.",
 "C109": "The state of a callback object is separate from all other state, because the functions copy the object: its own changes are lost when the function returns, other effects remain. Three exceptions stand for all (YstringException, std::out_of_range, any other with a tag). Backwards over seven or more continuation bytes that are not the whole text is undefined behaviour (C05) and excluded.",
 "C110": "True before the first token (C110_first_partial). False afterwards: line 32 of TokenIterator.hpp shortens the text before the finder is called, and the old token stays, so that the next next() skips as many bytes again, or throws std::out_of_range for ever if there are not so many (C110_later_refuted gives the exact behaviour).",
 "C111": "Iterators and views are restored (C111_decode_next, _prev, _pop, _pop_last), the string of append is unchanged. False: the character is overwritten with 0xFFFFFFFF (C111_char_refuted), the buffer of unescape(char*, size_t) holds the unescaped text up to the last escape sequence before the rejected one (C111_buffer_partial is exact, C111_buffer_refuted an instance), and unescape_next drops skipped backslash-newlines from the view (C63); C111_flag says what did_unescape holds. Four or more continuation bytes at the end are undefined behaviour (C05).",
 "C112": "A view is a null view or an offset and a length in the caller's array. False in two places: trim* returns a null view when nothing is left (C112_null_refuted), and TokenIterator's token and remainder are null views at the end (C112_iterator). Substrings: the text is the one asked for with the index pairs for which C26 and C27 hold (C112_..._substring_partial), the places are given for all pairs (C112_codepoint_place, C112_char_place).",
 "C113": "False in unescape for a bad sequence within six bytes after the first half of a surrogate pair: the offset named counts from the end of that half (C113_half_refuted is the exact behaviour, C113_half_ex an instance); \\u and \\U without digits at the end of the text are named themselves, without offset (C113_no_digits). C113_same_outcomes ties the model with messages to the one without. The other functions' messages are C126.",
 "C114": "C114_separators says which separators are respected; C114_exceptions_needed shows that each exception is needed (Kelvin sign becoming the separator k; U+00DF and U+0345 with reverse; to_title with reverse). The text split at a separator string must be in shortest form.",
 "C115": "C115_separators gives the ASCII separators; C115_exceptions_needed shows that '=' and U+16D68 are real exceptions. The text split at a separator string must be in shortest form.",
 "C116": "C116_lower_exceptions and C116_upper_exceptions show that the excepted code points really are exceptions; C116_not_title shows that nothing of the kind holds for to_title, which takes a combining mark for the end of a word.",
 "C117": "C117_hex and C117_pair show that the excepted endings are real exceptions.",
 "C118": "C118_expansion says exactly what is written for every line with at most one list of more than one element, with the blanks that the processor adds wrongly (Spec/Template.v); the wrong alignment is shown in C118_alignment_refuted (behind a line left out), C118_one_row_refuted (behind a list of one element in the same line) and C118_column_refuted (behind a value with line feeds). C118_values covers values which contain line feeds. IF, ELIF, ELSE, SET and the alignment markers are in C122. C118_parameters and C118_unclosed cover markers with parameters, which a dictionary ignores. C118_every, C118_every_exists and C118_every_unique: the same for every value and any number of lists in a line, so that with C118_missing the result is known for every template of plain lines.",
 "C119": "Look-ups of compositions are those that C108 shows to succeed (first element below U+1000). An array may come out empty (no three mappings with one difference in a group of 32), which strict C++ does not accept; see C119_lower_sample.",
 "C120": "True of replace_invalid_utf8(std::string&), add_range and add_codepoint. False of append for code points of more than one byte: the bytes before the failing one stay, and the string is no longer valid UTF-8 (C120_append_partial is exact, C120_damage general, C120_append_refuted an instance); add_codepoints keeps the code points already added (C120_add_codepoints_partial is exact). Single push_back and emplace_back calls are assumed to have the standard's strong guarantee.",
 "C121": "C121_mark shows why a combining mark at the start of the second text is excepted.",
 "C41": "Exact on valid text, and on every byte string (C41_start_any_bytes, C41_end_any_bytes, C41_any_bytes; C41_any_cases shows these are all the cases; the undefined ones are in C82).",
 "C122": "C122_blocks is for block markers at the start of their lines; C122_indented for markers behind blanks, where the alignment bug of C118 can show. ELIF or a second ELSE behind ELSE is accepted by the program and not covered. C122_append with C122_set and C122_set_later cover SET between any blocks (not inside of one); alignment is for one marked column and any number of lines. C122_every and C122_every_indented: with every value and any number of lists in a line; C122_missing: a condition that is asked and not in the dictionary is an error.",
 "C123": "With an empty separator and a non-empty newline_sep strings can be lost (C123_lost_refuted), and if newline_sep is more than one character longer than sep, lines can be too long (C123_long_refuted); the partial theorems cover the rest. first_sep and first_newline_sep are never used (C123_first_unused).",
 "C124": "Python's Unicode white space and upper() beyond ASCII are not modelled.",
 "C125": "Returning or throwing only; that normalising may loop or read outside its buffers is C67 and C70. C125_case_refuted and C125_replace_codepoints_refuted show the two exceptions, the partial theorems the rest.",
 "C126": "Together with C113 every throw of the library is covered. Predicates and finders passed by the caller are taken as functions that do not throw (C84, C112 have those that do).",
 "C127": "Form D, canonical order and equivalence are specified from the standard (Spec/NormalForms.v) over UnicodeData's columns 3 and 5 and the Hangul arithmetic; totality and uniqueness of form D are proved. Partial: the English claim is false of the code; what is proved is exactly when it holds, and that every singleton and every Hangul syllable violates it. to_decomposed does not return at all on texts with four-element decompositions (C67).",
 "C128": "to_decomposed: proved for every text. to_composed: proved to hold exactly when no character is lost (C68) and no code point from U+100000 on is dropped (C69); for code points below U+100000 exactly when no character is lost. C128_refuted has an example of each. Where to_composed is undefined: C70.",
 "C129": "Model/Expanders.v is the processor of Codegen.v over an abstract expander with a state; C129_dictionary proves that with the dictionary expander it is that of Codegen.v. Partial because the number in the context is not the column behind a line that is left out (C129_column_refuted). Simplified: methods do not change attributes, and the attributes that every Python object has are left out. C129_exactly says for every value, and every expander, exactly when templates of plain lines are expanded, into what and with which calls; C129_refused is the case of an exception.",
 "C130": "C130_needs_shortest and C130_needs_no_sharp_s show that both restrictions are needed. What std::string's operator< does (lexicographic, unsigned bytes) is the lex of Spec/CaseFold.v.",
 "C131": "The operations on sequences are the relations and functions of Spec/Sequences.v, over lists of anything; C131_unique says that they determine the result. Ignoring empty parts is C39.",
 "C132": "absent, absent_before, absent_after and groups are in Spec/Sequences.v, resolve in Spec/Slices.v; C132_groups: every sequence falls into groups.",
 "C133": "The inserters of the standard library for char, const char*, std::string and size_t are modelled in Model/Stream.v as the standard describes them, in the classic locale and with an exceptions() mask of 0.",
 "C134": "The user's program is Spec/Chunks.v, on the model of pop_utf8_codepoint that keeps the view when it throws.",
 "C135": "Splits without limit, keeping empty parts.",
 "C136": "ci split: separators that are valid UTF-8 and not empty (the others: C52, C101).",
 "C137": "The predicates meant are listed in Spec/CaseClasses.v: all but is_upper and is_lower.",
 "C138": "Joined text and original text must be shorter than 2^63 bytes (the largest std::string); no other restriction.",
 "C139": "Strings must be shorter than 2^63 bytes (the largest std::string).",
 "C141": "Strings must be shorter than 2^63 bytes (the largest std::string).",
 "C142": "Strings must be shorter than 2^63 bytes (the largest std::string); the number of replacements must not be the most negative one (C32).",
 "C143": "Strings must be shorter than 2^63 bytes (the largest std::string).",
 "C144": "Strings must be shorter than 2^63 bytes (the largest std::string).",
 "C145": "The text and everything inserted must together be shorter than 2^63 bytes; counting from the end needs edits that remove something and leave something behind them.",
 "C146": "Strings must be shorter than 2^63 bytes (the largest std::string).",
 "C147": "Strings must be shorter than 2^63 bytes (the largest std::string).",
 "C148": "Strings must be shorter than 2^63 bytes (the largest std::string).",
 "C149": "Strings must be shorter than 2^63 bytes (the largest std::string).",
 "C150": "Strings must be shorter than 2^63 bytes (the largest std::string)."
}