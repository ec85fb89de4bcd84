{"id": "C01", "title": "UTF-32 to UTF-8 to UTF-32 round trip", "statement": "For every sequence of code points in 0..0x10FFFF, to_utf32(from_utf32(cs)) succeeds and returns cs.", "quantifier": "every finite sequence of code points <= 0x10FFFF (surrogates included)", "why_tests_cant": "the space of sequences is infinite; tests only sample a few literals; the claim ranges over all of them", "anchors": ["src/Ystring/Utf32.cpp:from_utf32", "src/Ystring/Utf32.cpp:to_utf32", "src/Ystring/EncodeUtf8.hpp:encode_utf8", "include/Ystring/DecodeUtf8.hpp:decode_next"]}
{"id": "C02", "title": "from_utf32 emits the RFC 3629 encoding and nothing else", "statement": "from_utf32(cs) is the concatenation, in order, of the RFC 3629 byte sequences of the code points of cs that are <= 0x10FFFF; larger values contribute no bytes. Appending a single code point gives the same bytes.", "quantifier": "every sequence of 32-bit values", "why_tests_cant": "2^32 values per position; tests check ten", "anchors": ["src/Ystring/Utf32.cpp:from_utf32", "src/Ystring/EncodeUtf8.hpp:encode_utf8", "src/Ystring/EncodeUtf8.hpp:get_utf8_encoded_length"]}
{"id": "C03", "title": "The forward decoder is exact and memory safe", "statement": "At every position of every byte range decode_next either returns the code point of the (generalised, 1-4 byte) UTF-8 sequence that starts there and advances by exactly its length, or, when no such sequence starts there, returns INVALID_CHAR and leaves the iterator where it was. It never dereferences outside the range.", "quantifier": "every byte string and every position in it, including the end", "why_tests_cant": "malformed inputs are unbounded in number and kind", "anchors": ["include/Ystring/DecodeUtf8.hpp:decode_next", "include/Ystring/DecodeUtf8.hpp:safe_decode_next"]}
{"id": "C04", "title": "The backward decoder is exact", "statement": "At every position decode_prev either returns the code point of the UTF-8 sequence that ends there and moves back by exactly its length, or returns INVALID_CHAR and leaves the iterator where it was; stepping back over what decode_next just read returns the same code point and the original position.", "quantifier": "every byte string and position where the call has defined behaviour", "why_tests_cant": "infinitely many strings; the interplay of the two decoders cannot be enumerated", "anchors": ["include/Ystring/DecodeUtf8.hpp:decode_prev", "include/Ystring/DecodeUtf8.hpp:safe_decode_prev", "include/Ystring/DecodeUtf8.hpp:decode_next"]}
{"id": "C05", "title": "Backward decoding has defined behaviour on every byte string", "statement": "decode_prev never performs an operation with undefined behaviour, whatever bytes precede the position.", "quantifier": "every byte string and position", "why_tests_cant": "undefined behaviour is invisible to an ordinary test run", "anchors": ["include/Ystring/DecodeUtf8.hpp:decode_prev"]}
{"id": "C06", "title": "All decoding entry points agree on what is valid", "statement": "For every byte string: is_valid_utf8 is true iff the string is a concatenation of 1-4 byte UTF-8 sequences; to_utf32 returns exactly the code points of that (unique) segmentation when it is, and throws YstringException when it is not.", "quantifier": "every byte string", "why_tests_cant": "valid and invalid strings of every length", "anchors": ["src/Ystring/Algorithms.cpp:is_valid_utf8", "src/Ystring/Utf32.cpp:to_utf32", "include/Ystring/DecodeUtf8.hpp:safe_decode_next"]}
{"id": "C07", "title": "is_valid_utf8 is RFC 3629 validity", "statement": "is_valid_utf8(s) holds exactly when s is well-formed UTF-8 (shortest forms, no surrogates, nothing above U+10FFFF).", "quantifier": "every byte string", "why_tests_cant": "the set of ill-formed strings is infinite", "anchors": ["src/Ystring/Algorithms.cpp:is_valid_utf8", "include/Ystring/DecodeUtf8.hpp:decode_next"]}
{"id": "C08", "title": "Skipping forwards and backwards sees the same code point boundaries", "statement": "On every byte string, valid or not, the boundaries visited by repeated skip_next from the start are the boundaries visited by repeated skip_prev from the end; on valid strings they are the code point boundaries, on other strings the boundaries of the pieces the lead bytes announce (see C24).", "quantifier": "every byte string shorter than 2^32 - 1 bytes", "why_tests_cant": "malformed sequences combine in unboundedly many ways", "anchors": ["include/Ystring/DecodeUtf8.hpp:skip_next", "include/Ystring/DecodeUtf8.hpp:skip_prev", "include/Ystring/DecodeUtf8.hpp:remove_utf8_codepoint", "include/Ystring/DecodeUtf8.hpp:remove_last_utf8_codepoint"]}
{"id": "C09", "title": "count_codepoints counts code points and reports invalid input", "statement": "count_codepoints(s) is the number of code points of s when s is valid UTF-8, and throws YstringException when s contains an invalid code point.", "quantifier": "every byte string", "why_tests_cant": "needs all strings, valid and invalid", "anchors": ["src/Ystring/Algorithms.cpp:count_codepoints", "include/Ystring/Algorithms.hpp:count_codepoints"]}
{"id": "C10", "title": "append is exact and all-or-nothing", "statement": "append(str,c) makes str the old str followed by the UTF-8 encoding of c when c <= 0x10FFFF; otherwise it throws YstringException and str is unchanged.", "quantifier": "every string and every 32-bit c", "why_tests_cant": "2^32 code points times all strings", "anchors": ["src/Ystring/Algorithms.cpp:append"]}
{"id": "C11", "title": "pop/remove code point functions split the view exactly", "statement": "pop_utf8_codepoint / pop_last_utf8_codepoint return the first / last code point and leave exactly the other bytes; on the empty view they return nothing; on a malformed end they throw and leave the view unchanged. remove_* drop the same bytes on valid input and report emptiness. pop_last_utf8_codepoint is defined exactly when decoding backwards from the end is (C05).", "quantifier": "every byte string", "why_tests_cant": "every string and every malformed ending", "anchors": ["include/Ystring/DecodeUtf8.hpp:pop_utf8_codepoint", "include/Ystring/DecodeUtf8.hpp:pop_last_utf8_codepoint", "include/Ystring/DecodeUtf8.hpp:remove_utf8_codepoint", "include/Ystring/DecodeUtf8.hpp:remove_last_utf8_codepoint"]}
{"id": "C12", "title": "contains(str, c) decides membership", "statement": "contains(s,c) is true iff c is one of the code points before the first malformed sequence; otherwise false if s is valid and YstringException if it is not.", "quantifier": "every byte string and code point", "why_tests_cant": "tests only sample a few literals; the claim ranges over all of them", "anchors": ["src/Ystring/Algorithms.cpp:contains"]}
{"id": "C13", "title": "starts_with / ends_with decide prefix / suffix", "statement": "starts_with(s,p) iff s = p ++ t for some t; ends_with(s,p) iff s = t ++ p for some t.", "quantifier": "all pairs of strings", "why_tests_cant": "tests only sample a few literals; the claim ranges over all of them", "anchors": ["src/Ystring/Algorithms.cpp:starts_with", "src/Ystring/Algorithms.cpp:ends_with"]}
{"id": "C14", "title": "find_first returns the leftmost occurrence", "statement": "find_first(s,p,o) with p non-empty and o <= size returns {i,size(p)} where i is the least i >= o at which p occurs in s, and {size(s),0} when p does not occur at or after o.", "quantifier": "all strings, patterns and offsets", "why_tests_cant": "overlaps and self-similar patterns of every length", "anchors": ["src/Ystring/Algorithms.cpp:find_first"]}
{"id": "C15", "title": "find_last returns the rightmost occurrence", "statement": "find_last(s,p,o) with p non-empty returns {i,size(p)} with i the greatest i such that p occurs at i and ends at or before min(o,size); otherwise {0,0}.", "quantifier": "all strings, patterns and offsets", "why_tests_cant": "tests only sample a few literals; the claim ranges over all of them", "anchors": ["src/Ystring/Algorithms.cpp:find_last", "src/Ystring/AlgorithmUtilities.hpp:search_last"]}
{"id": "C16", "title": "find_first_where / find_first_of return the first matching code point", "statement": "The result is the byte range and value of the first code point at or after the offset satisfying the predicate; {npos,0}/INVALID_CHAR when the rest is valid and none matches; YstringException when a malformed sequence comes first.", "quantifier": "every byte string, predicate (or char list or CodepointSet) and offset", "why_tests_cant": "tests only sample a few literals; the claim ranges over all of them", "anchors": ["include/Ystring/Algorithms.hpp:find_first_where", "src/Ystring/Algorithms.cpp:find_first_of"]}
{"id": "C17", "title": "find_last_where / find_last_of return the last matching code point", "statement": "The result is the byte range and value of the last code point ending at or before min(offset,size) that satisfies the predicate; npos/INVALID_CHAR when none does and the prefix is valid.", "quantifier": "every byte string, predicate and offset", "why_tests_cant": "tests only sample a few literals; the claim ranges over all of them", "anchors": ["include/Ystring/Algorithms.hpp:find_last_where", "src/Ystring/Algorithms.cpp:find_last_of"]}
{"id": "C18", "title": "find_first_newline finds the first newline, with CR LF as one", "statement": "The result covers the first of LF, VT, FF, CR, U+0085, U+2028, U+2029, extended over the LF when it is CR immediately followed by LF; empty when there is none. Because the newline array is read up to the next zero in memory (C20), code points stored between the array and that zero count as newlines too, and the call is undefined when there is no such zero; with a zero directly after the array the result is exact.", "quantifier": "every valid string and offset, every content of the memory after the array", "why_tests_cant": "all strings; the CR/LF lookahead interacts with malformed and multi-byte neighbours", "anchors": ["src/Ystring/Algorithms.cpp:find_first_newline", "src/Ystring/Algorithms.cpp:NEWLINES"]}
{"id": "C19", "title": "find_last_newline finds the last newline, with CR LF as one", "statement": "The result covers the last newline code point ending at or before the offset, extended backwards over CR when it is an LF preceded by CR; empty when there is none. Code points between the newline array and the next zero in memory count as newlines, as in C18.", "quantifier": "every valid string and offset, every content of the memory after the array", "why_tests_cant": "tests only sample a few literals; the claim ranges over all of them", "anchors": ["src/Ystring/Algorithms.cpp:find_last_newline", "src/Ystring/Algorithms.cpp:NEWLINES"]}
{"id": "C20", "title": "The library's own character arrays denote exactly their elements", "statement": "The newline searches and the trim functions with default characters use exactly the listed characters and no others, with defined behaviour.", "quantifier": "every string, and every possible memory content next to the arrays", "why_tests_cant": "an out-of-bounds read normally passes tests unnoticed because of padding", "anchors": ["src/Ystring/Algorithms.cpp:NEWLINES", "include/Ystring/Algorithms.hpp:COMMON_WHITESPACE", "include/Ystring/Algorithms.hpp:trim", "src/Ystring/Algorithms.cpp:find_first_newline"]}
{"id": "C21", "title": "Character boundaries: one base code point plus its marks", "statement": "count_chars, get_next_char_range and get_prev_char_range agree on one segmentation of a valid string into characters: every character is one code point followed by all the combining marks after it; the ranges are contiguous, non-empty, cover the string and are the same seen from either end.", "quantifier": "every valid string", "why_tests_cant": "tests only sample a few literals; the claim ranges over all of them", "anchors": ["src/Ystring/Algorithms.cpp:count_chars", "src/Ystring/Algorithms.cpp:get_next_char_range", "src/Ystring/Algorithms.cpp:get_prev_char_range"]}
{"id": "C22", "title": "get_char_pos counts characters from either end", "statement": "get_char_pos(s,k) is the byte offset after the first k characters for 0<=k<=n, get_char_pos(s,-k) the offset before the last k characters, npos outside; get_char_pos(s,k)=get_char_pos(s,k-n) for 0<=k<n. In a string that is not valid, characters are found up to the first malformed bytes (from the start) or back to the last ones (from the end); beyond that YstringException, and for negative k undefined behaviour exactly where decoding backwards is undefined (C05). The end of the last character before malformed bytes is not found.", "quantifier": "every string, every ptrdiff_t", "why_tests_cant": "tests only sample a few literals; the claim ranges over all of them", "anchors": ["src/Ystring/Algorithms.cpp:get_char_pos"]}
{"id": "C23", "title": "get_char_range returns the k-th character", "statement": "get_char_range(s,k) is the byte range of character number k (k>=0) or number n+k (k<0), and an empty range at the nearer end of the string when there is no such character. In a string that is not valid, the characters before the first malformed bytes except the last (k>=0), or after the last malformed bytes (k<0); for other k YstringException, or undefined behaviour as in C22.", "quantifier": "every string, every ptrdiff_t", "why_tests_cant": "tests only sample a few literals; the claim ranges over all of them", "anchors": ["src/Ystring/Algorithms.cpp:get_char_range"]}
{"id": "C24", "title": "get_codepoint_pos counts code points from either end", "statement": "get_codepoint_pos(s,k) is the byte offset of code point k, size when k = n, of code point n+k for negative k, and npos when |k| > n. Other byte strings are cut into pieces by what their bytes announce (a byte and the continuation bytes after it, at most as many as announced), the pieces of valid text being its code points. On any string forward and backward positions agree; behaviour is defined for every ptrdiff_t except the most negative one, where it is undefined (C91).", "quantifier": "every valid string and every other byte string shorter than 2^32 - 1 bytes (C08), every ptrdiff_t", "why_tests_cant": "tests only sample a few literals; the claim ranges over all of them", "anchors": ["src/Ystring/Algorithms.cpp:get_codepoint_pos"]}
{"id": "C25", "title": "get_codepoint returns the k-th code point", "statement": "get_codepoint(s,k) is the byte range and value of code point k (or n+k for negative k), and an empty range with INVALID_CHAR when there is none. In other byte strings code points are counted in pieces as in C24; a piece that is no code point gives YstringException, except that a negative k is undefined where decoding backwards is (C05).", "quantifier": "every valid string and every other byte string shorter than 2^32 - 1 bytes, every ptrdiff_t", "why_tests_cant": "tests only sample a few literals; the claim ranges over all of them", "anchors": ["src/Ystring/Algorithms.cpp:get_codepoint"]}
{"id": "C26", "title": "get_codepoint_substring is slicing by code points", "statement": "get_codepoint_substring(s,i,j) is the text of code points i..j-1 where negative indices count from the end and out-of-range indices are clamped; empty when i >= j.", "quantifier": "every valid string and every other byte string shorter than 2^32 - 1 bytes (in the pieces of C24), every pair of ptrdiff_t", "why_tests_cant": "four sign combinations times clamping times all strings", "anchors": ["src/Ystring/Algorithms.cpp:get_codepoint_substring", "src/Ystring/AlgorithmUtilities.cpp:get_codepoint_substring_range", "src/Ystring/AlgorithmUtilities.cpp:get_capped_codepoint_pos"]}
{"id": "C27", "title": "get_char_substring is slicing by characters", "statement": "get_char_substring(s,i,j) is the text of characters i..j-1 where negative indices count from the end and out-of-range indices are clamped; empty when i >= j. In a string that is not valid the characters that can be reached are those of C22; for other indices YstringException, or undefined behaviour as in C22.", "quantifier": "every byte string and every pair of ptrdiff_t", "why_tests_cant": "four sign combinations times clamping times all strings", "anchors": ["src/Ystring/Algorithms.cpp:get_char_substring", "src/Ystring/AlgorithmUtilities.cpp:get_char_substring_range", "src/Ystring/AlgorithmUtilities.cpp:get_capped_char_pos"]}
{"id": "C28", "title": "insert_codepoint(s) inserts at a code point index", "statement": "The result is s with the new text inserted exactly before code point k (from the end for negative k), all other bytes unchanged; YstringException when |k| exceeds the number of code points, unless the inserted text is empty: inserting nothing always gives s back; YstringException for a code point above U+10FFFF.", "quantifier": "every valid string and every other byte string shorter than 2^32 - 1 bytes (in the pieces of C24), every index and inserted text", "why_tests_cant": "tests only sample a few literals; the claim ranges over all of them", "anchors": ["src/Ystring/Algorithms.cpp:insert_codepoint", "src/Ystring/Algorithms.cpp:insert_codepoints", "src/Ystring/AlgorithmUtilities.cpp:insert_at_offset"]}
{"id": "C29", "title": "insert_char(s) inserts at a character index", "statement": "The result is s with the new text inserted exactly before character k (from the end for negative k), all other bytes unchanged; YstringException when |k| exceeds the number of characters, unless the inserted text is empty: inserting nothing always gives s back; YstringException for a code point above U+10FFFF. In a string that is not valid the characters that can be reached are those of C22; for other indices YstringException, or undefined behaviour as in C22.", "quantifier": "every byte string, index and inserted text", "why_tests_cant": "tests only sample a few literals; the claim ranges over all of them", "anchors": ["src/Ystring/Algorithms.cpp:insert_char", "src/Ystring/Algorithms.cpp:insert_chars", "src/Ystring/AlgorithmUtilities.cpp:insert_at_offset"]}
{"id": "C30", "title": "replace_codepoints / replace_chars replace exactly one slice", "statement": "The result is the text before the slice i..j, then the replacement, then the text after it, for every combination of signs and clamping. In a string that is not valid the characters that can be reached are those of C22; for other indices YstringException, or undefined behaviour as in C22.", "quantifier": "every byte string (code points: valid, or shorter than 2^32 - 1 bytes, in the pieces of C24), indices and replacement", "why_tests_cant": "tests only sample a few literals; the claim ranges over all of them", "anchors": ["src/Ystring/Algorithms.cpp:replace_codepoints", "src/Ystring/Algorithms.cpp:replace_chars", "src/Ystring/AlgorithmUtilities.cpp:replace_subrange"]}
{"id": "C31", "title": "replace from the front replaces the leftmost non-overlapping occurrences", "statement": "For m >= 0 and a non-empty pattern the result is s with its first min(m,k) of the k leftmost-first non-overlapping occurrences replaced and everything else unchanged; an empty pattern occurs before the text as often as asked: m copies of the replacement are put in front (of an empty text none). The call returns for every pattern. (The documented meaning of m = 0 is C90.)", "quantifier": "all strings, patterns, replacements and counts", "why_tests_cant": "self-overlapping patterns and unbounded counts; non-termination", "anchors": ["src/Ystring/Algorithms.cpp:replace"]}
{"id": "C32", "title": "replace from the back replaces the rightmost non-overlapping occurrences", "statement": "For m < 0 the result is s with its last min(-m,k) of the k rightmost-first non-overlapping occurrences replaced and everything else unchanged, for every m except the most negative ptrdiff_t, where the call is undefined (C91).", "quantifier": "all strings, patterns, replacements and counts", "why_tests_cant": "tests only sample a few literals; the claim ranges over all of them", "anchors": ["src/Ystring/Algorithms.cpp:replace", "src/Ystring/AlgorithmUtilities.cpp:find_last_n", "src/Ystring/AlgorithmUtilities.hpp:search_last"]}
{"id": "C33", "title": "replace_codepoint replaces code points one for one", "statement": "On valid strings every (or the first / last m) code point stored in the RFC 3629 encoding of `from` becomes `to`, every other code point is unchanged (overlong forms of `from`, which the library accepts as text, among them); invalid from/to throws.", "quantifier": "every valid string and pair of code points", "why_tests_cant": "a byte search could match inside other code points; must hold for all strings", "anchors": ["src/Ystring/Algorithms.cpp:replace_codepoint", "src/Ystring/Algorithms.cpp:replace"]}
{"id": "C34", "title": "replace_invalid_utf8 always produces valid text and keeps valid text", "statement": "The result is accepted by is_valid_utf8, equals the input when the input is valid, keeps every valid code point in order, puts exactly one replacement for each maximal malformed piece, is idempotent, and the in-place overload gives the same string.", "quantifier": "every byte string below 4 GiB and every replacement code point", "why_tests_cant": "needs all malformed byte strings", "anchors": ["src/Ystring/Algorithms.cpp:replace_invalid_utf8"]}
{"id": "C35", "title": "reverse reverses characters", "statement": "reverse(s) is the characters of s in opposite order with each character's bytes intact; applying it twice gives s back exactly when s has at most one character or does not start with a mark (a mark at the start joins the character before it when it is no longer first). If s is not valid reverse throws YstringException, unless the bytes up to the last malformed ones end with a run of seven continuation bytes that is not the whole string: then the behaviour is undefined (C05).", "quantifier": "every string", "why_tests_cant": "tests only sample a few literals; the claim ranges over all of them", "anchors": ["src/Ystring/Algorithms.cpp:reverse"]}
{"id": "C36", "title": "join undoes split on a separator", "statement": "For every non-empty separator, max_splits >= 1 and ignore_empty = false, join(split(s,sep),sep) = s; with unlimited splits no part contains the separator. An empty separator gives the single part s.", "quantifier": "all strings and separators", "why_tests_cant": "self-overlapping separators, all lengths", "anchors": ["src/Ystring/Algorithms.cpp:split", "include/Ystring/Algorithms.hpp:split_where", "include/Ystring/Algorithms.hpp:join", "include/Ystring/TokenIterator.hpp:TokenIterator"]}
{"id": "C37", "title": "split on characters cuts at exactly those code points", "statement": "split(s,chars) returns the maximal runs of code points not in chars, in order, empty runs included; their interleaving with the removed code points is s. If malformed bytes are reached before the limit it throws YstringException; behind the limit they are just part of the last piece.", "quantifier": "every byte string, char list and limit >= 1", "why_tests_cant": "tests only sample a few literals; the claim ranges over all of them", "anchors": ["src/Ystring/Algorithms.cpp:split", "include/Ystring/Algorithms.hpp:split_where", "src/Ystring/Algorithms.cpp:find_first_of"]}
{"id": "C38", "title": "split_lines cuts at exactly the newlines", "statement": "split_lines(s) cuts s at every newline (CR LF counting once); no part contains a newline code point and the parts interleaved with the newlines give s back. Code points between the newline array and the next zero in memory count as newlines, as in C18. If malformed bytes are reached before the limit (or directly behind a CR at which it cuts) it throws YstringException; behind the limit they are part of the last piece.", "quantifier": "every byte string, every limit >= 1, every content of the memory after the array", "why_tests_cant": "tests only sample a few literals; the claim ranges over all of them", "anchors": ["src/Ystring/Algorithms.cpp:split_lines", "src/Ystring/Algorithms.cpp:find_first_newline"]}
{"id": "C39", "title": "max_splits and ignore_empty", "statement": "With max_splits = n >= 1 at most n cuts are made (with ignore_empty not counting those after an empty part), the text after the n-th cut is returned untouched as the last part and nothing is lost; ignore_empty removes exactly the empty parts. (n = 0 is C90.)", "quantifier": "every string, separator, n and flag", "why_tests_cant": "tests only sample a few literals; the claim ranges over all of them", "anchors": ["include/Ystring/Algorithms.hpp:split_where", "include/Ystring/Algorithms.hpp:SplitParams"]}
{"id": "C40", "title": "TokenIterator part, token and remainder partition the text", "statement": "After each successful next() that found a token, part() ++ token() ++ remainder() is the text that was left before the call, and token() is the range the finder returned.", "quantifier": "every string and every finder returning ranges inside its argument", "why_tests_cant": "quantifies over all finders and all positions", "anchors": ["include/Ystring/TokenIterator.hpp:part", "include/Ystring/TokenIterator.hpp:token", "include/Ystring/TokenIterator.hpp:remainder", "include/Ystring/TokenIterator.hpp:next"]}
{"id": "C41", "title": "trim removes exactly the leading / trailing matching code points", "statement": "trim_start/trim_end/trim return s without its longest prefix / suffix / both of code points in the set; the result starts and ends with a code point not in the set (or is empty) and is a contiguous piece of s.", "quantifier": "every valid string and char set or predicate", "why_tests_cant": "tests only sample a few literals; the claim ranges over all of them", "anchors": ["include/Ystring/Algorithms.hpp:trim_end_where", "include/Ystring/Algorithms.hpp:trim_start_where", "src/Ystring/Algorithms.cpp:trim"]}
{"id": "C42", "title": "join concatenates with delimiters", "statement": "join(l,d) is the concatenation of the elements of l with d between neighbours, empty for an empty list.", "quantifier": "all lists and delimiters", "why_tests_cant": "tests only sample a few literals; the claim ranges over all of them", "anchors": ["include/Ystring/Algorithms.hpp:join"]}
{"id": "C43", "title": "Case mapping follows UnicodeData.txt", "statement": "to_upper/to_lower/to_title(c) is the simple mapping of c in the bundled UnicodeData 16.0.0 (c itself when there is none), for every 32-bit c.", "quantifier": "all 2^32 values", "why_tests_cant": "2^32 values and a compressed table with a binary search", "anchors": ["src/Ystring/ConvertCase.cpp:to_upper", "src/Ystring/ConvertCase.cpp:to_lower", "src/Ystring/ConvertCase.cpp:to_title", "src/Ystring/UpperCaseTables.hpp", "src/Ystring/LowerCaseTables.hpp", "src/Ystring/TitleCaseTables.hpp", "src/Ystring/CharMappingTypes.hpp:get"]}
{"id": "C44", "title": "String case conversion maps code points and is idempotent", "statement": "to_lower(s) maps each code point, to_upper(s) maps each code point and U+00DF to SS; converting twice equals converting once; invalid input throws.", "quantifier": "every byte string", "why_tests_cant": "idempotence over all strings", "anchors": ["src/Ystring/ConvertCase.cpp:to_lower", "src/Ystring/ConvertCase.cpp:to_upper"]}
{"id": "C45", "title": "to_title capitalises the first letter of each run of letters", "statement": "to_title(s) title-cases a letter not preceded by a letter (U+00DF to Ss), lower-cases a letter preceded by one and keeps other code points, where a letter is what is_letter says (C55, C56); with Unicode's own letters the same holds of texts free of the ideographs is_letter misses.", "quantifier": "every valid string", "why_tests_cant": "tests only sample a few literals; the claim ranges over all of them", "anchors": ["src/Ystring/ConvertCase.cpp:to_title"]}
{"id": "C46", "title": "Case-insensitive compare is a total preorder", "statement": "compare(a,b) = -compare(b,a), it is transitive, and compare(a,b) = 0 exactly when the upper-cased code point sequences are equal; no 32-bit overflow.", "quantifier": "all pairs and triples of byte strings (the order of the code points: as far as they decode; the preorder laws: unrestricted)", "why_tests_cant": "transitivity over all triples", "anchors": ["src/Ystring/Algorithms.cpp:case_insensitive::compare", "include/Ystring/CaseInsensitive.hpp:case_insensitive_compare"]}
{"id": "C47", "title": "case_insensitive::equal is compare = 0 and an equivalence", "statement": "equal(a,b) iff compare(a,b)=0 iff the code points agree pairwise after to_upper.", "quantifier": "all pairs of valid strings", "why_tests_cant": "tests only sample a few literals; the claim ranges over all of them", "anchors": ["src/Ystring/Algorithms.cpp:case_insensitive::equal"]}
{"id": "C48", "title": "case_insensitive::less is compare < 0, a strict weak order", "statement": "less(a,b) iff compare(a,b)<0; irreflexive, transitive, with transitive incomparability, so it may be used with std::sort and std::map.", "quantifier": "all pairs/triples of valid strings", "why_tests_cant": "tests only sample a few literals; the claim ranges over all of them", "anchors": ["src/Ystring/Algorithms.cpp:case_insensitive::less"]}
{"id": "C49", "title": "case_insensitive starts_with / ends_with", "statement": "starts_with(s,p) (ends_with) is true iff the code points of p equal, after to_upper, the first (last) code points of s.", "quantifier": "all byte strings s and valid patterns p (malformed p: C101)", "why_tests_cant": "tests only sample a few literals; the claim ranges over all of them", "anchors": ["src/Ystring/Algorithms.cpp:case_insensitive::starts_with", "src/Ystring/Algorithms.cpp:case_insensitive::ends_with", "src/Ystring/AlgorithmUtilities.hpp:next_case_insensitive_mismatch", "src/Ystring/AlgorithmUtilities.hpp:prev_case_insensitive_mismatch"]}
{"id": "C50", "title": "case_insensitive find_first / find_last", "statement": "The result is the byte range of the first (last) run of code points equal to p after to_upper, empty when there is none.", "quantifier": "all byte strings and offsets, valid patterns (malformed ones: C101)", "why_tests_cant": "tests only sample a few literals; the claim ranges over all of them", "anchors": ["src/Ystring/Algorithms.cpp:case_insensitive::find_first", "src/Ystring/Algorithms.cpp:case_insensitive::find_last"]}
{"id": "C51", "title": "case_insensitive::replace", "statement": "Replaces the leftmost (rightmost for negative counts) non-overlapping case-insensitive matches, at most |m|, leaving everything else unchanged; always terminates. (The documented meaning of m = 0 is C90.)", "quantifier": "all byte strings, replacements and counts, valid patterns (malformed ones: C101)", "why_tests_cant": "tests only sample a few literals; the claim ranges over all of them", "anchors": ["src/Ystring/Algorithms.cpp:case_insensitive::replace"]}
{"id": "C52", "title": "case_insensitive::split", "statement": "Parts interleaved with the matched separators give the string back and no part contains a case-insensitive match.", "quantifier": "all byte strings, limits and flags, valid separators (malformed ones: C101)", "why_tests_cant": "tests only sample a few literals; the claim ranges over all of them", "anchors": ["src/Ystring/Algorithms.cpp:case_insensitive::split"]}
{"id": "C53", "title": "CodepointSet is the union of what was added", "statement": "After any sequence of add_range/add_codepoint/add_codepoints, contains(c) is true iff c was added (negated: iff it was not).", "quantifier": "every history of add operations and every 32-bit code point", "why_tests_cant": "histories are unbounded; range merging and wrap-around corner cases", "anchors": ["src/Ystring/Char32Set.cpp:CodepointSet::add_codepoint", "src/Ystring/Char32Set.cpp:CodepointSet::add_range", "src/Ystring/Char32Set.cpp:CodepointSet::contains"]}
{"id": "C54", "title": "Case-insensitive set membership extends membership", "statement": "Every code point a non-negated CodepointSet contains is also contained case-insensitively, and membership does not depend on the case of the code point tested.", "quantifier": "every set and code point", "why_tests_cant": "tests only sample a few literals; the claim ranges over all of them", "anchors": ["src/Ystring/Char32Set.cpp:CodepointSet::case_insensitive_contains", "src/Ystring/Char32Set.cpp:case_insensitive_contains"]}
{"id": "C55", "title": "get_char_class is the Unicode general category", "statement": "get_char_class(c) is the general category of c in the bundled UnicodeData 16.0.0 (UNASSIGNED when c is not listed or exceeds 0x10FFFF), for every 32-bit c.", "quantifier": "all 2^32 values", "why_tests_cant": "2^32 values against a compressed table", "anchors": ["src/Ystring/CharClass.cpp:get_char_class", "src/Ystring/CharClass.cpp:decode_char_class", "src/Ystring/CharClassTables.hpp"]}
{"id": "C56", "title": "Code point predicates are consistent", "statement": "Every code point has exactly one character class bit; is_letter/is_mark/... are exactly the unions of the general categories they document; is_whitespace is tab, space, newlines and separators.", "quantifier": "all 2^32 values", "why_tests_cant": "tests only sample a few literals; the claim ranges over all of them", "anchors": ["include/Ystring/CodepointPredicates.hpp"]}
{"id": "C57", "title": "escape_json output is a valid JSON string body", "statement": "The output never contains a raw control byte or an unescaped quote or backslash; every backslash starts one of the JSON escapes; bytes that need no escape are copied unchanged.", "quantifier": "every byte string", "why_tests_cant": "tests only sample a few literals; the claim ranges over all of them", "anchors": ["src/Ystring/Escape.cpp:escape_json"]}
{"id": "C58", "title": "unescape inverts escape_json", "statement": "unescape(escape_json(s)) = s, so escape_json is injective.", "quantifier": "every byte string", "why_tests_cant": "infinitely many strings; the two are implemented independently", "anchors": ["src/Ystring/Escape.cpp:escape_json", "src/Ystring/Unescape.cpp:unescape"]}
{"id": "C59", "title": "has_escapable_chars / find_first_escapable_char predict escape_json", "statement": "has_escapable_chars(s) iff escape_json(s) != s; find_first_escapable_char returns the first control, quote or backslash byte at or after the offset, for offsets up to the size of s; beyond it is undefined (C91).", "quantifier": "every byte string and offset", "why_tests_cant": "tests only sample a few literals; the claim ranges over all of them", "anchors": ["src/Ystring/Escape.cpp:has_escapable_chars", "src/Ystring/Escape.cpp:find_first_escapable_char"]}
{"id": "C60", "title": "unescape is memory safe on every input", "statement": "For every byte string unescape either returns or throws YstringException; it never reads or writes outside the string and never uses an indeterminate value.", "quantifier": "every byte string", "why_tests_cant": "out-of-bounds reads pass tests silently", "anchors": ["src/Ystring/Unescape.cpp:unescape", "src/Ystring/Unescape.cpp:find_first_escaped_char", "src/Ystring/Unescape.cpp:find_first_where", "src/Ystring/Unescape.cpp:parse_escaped_hex_char"]}
{"id": "C61", "title": "unescape replaces each escape sequence by its character", "statement": "On well-formed input unescape copies unescaped bytes and replaces each escape by the UTF-8 encoding of the character it denotes, including surrogate pairs; malformed escapes throw.", "quantifier": "every byte string", "why_tests_cant": "tests only sample a few literals; the claim ranges over all of them", "anchors": ["src/Ystring/Unescape.cpp:unescape", "src/Ystring/Unescape.cpp:parse_utf16"]}
{"id": "C62", "title": "In-place unescape never overtakes its input", "statement": "The write position never passes the read position, so the in-place result equals the out-of-place one and is never longer than the input.", "quantifier": "every byte string on which unescape is defined", "why_tests_cant": "aliasing errors depend on exact lengths", "anchors": ["src/Ystring/Unescape.cpp:unescape"]}
{"id": "C63", "title": "unescape_next advances on success and leaves the view alone on failure", "statement": "On success the view is a proper suffix of the old one; when it throws, the view is unchanged; on an empty view it returns nothing.", "quantifier": "every byte string", "why_tests_cant": "exception paths times all malformed inputs", "anchors": ["src/Ystring/Unescape.cpp:unescape_next"]}
{"id": "C64", "title": "unescape_next agrees with unescape", "statement": "Decoding a string one character at a time with unescape_next and re-encoding gives unescape(s) whenever both succeed.", "quantifier": "every byte string", "why_tests_cant": "two independent parsers of the same language", "anchors": ["src/Ystring/Unescape.cpp:unescape_next", "src/Ystring/Unescape.cpp:unescape"]}
{"id": "C65", "title": "A run of unescape_next over escape_json(s) yields the code points of s", "statement": "Iterating unescape_next over escape_json(s) until empty yields exactly to_utf32(s).", "quantifier": "every valid string", "why_tests_cant": "tests only sample a few literals; the claim ranges over all of them", "anchors": ["src/Ystring/Unescape.cpp:unescape_next", "src/Ystring/Escape.cpp:escape_json"]}
{"id": "C66", "title": "decompose returns the full canonical pair decomposition", "statement": "decompose(c) is the sequence obtained by repeatedly replacing the first element by its two-element canonical decomposition in UnicodeData.", "quantifier": "all 2^32 values", "why_tests_cant": "tests only sample a few literals; the claim ranges over all of them", "anchors": ["src/Ystring/Normalize.cpp:decompose", "src/Ystring/Normalize.cpp:decompose_char", "src/Ystring/Normalize.cpp:find_decomposed", "src/Ystring/Normalize.cpp:get_decomposed_size"]}
{"id": "C67", "title": "to_decomposed terminates and decomposes every code point", "statement": "For every valid string to_decomposed returns, and the result is the concatenation of the full decompositions of its code points.", "quantifier": "every valid string", "why_tests_cant": "non-termination and 36 rare characters among 1.1 million", "anchors": ["src/Ystring/Normalize.cpp:to_decomposed", "src/Ystring/Normalize.cpp:decompose_char", "src/Ystring/Normalize.cpp:get_decomposed_size"]}
{"id": "C68", "title": "to_composed loses no text", "statement": "Every code point of s that takes part in no composition appears unchanged in to_composed(s); on a string without composable pairs the result is s.", "quantifier": "every valid string", "why_tests_cant": "depends on what follows each composition", "anchors": ["src/Ystring/Normalize.cpp:to_composed"]}
{"id": "C69", "title": "find-composition is exactly the Unicode pair table", "statement": "Two adjacent code points compose iff UnicodeData lists a character with that two-element canonical decomposition, and to that character.", "quantifier": "all pairs of code points", "why_tests_cant": "2^40 pairs against a compressed table with truncating comparison", "anchors": ["src/Ystring/Normalize.cpp:find_composed", "src/Ystring/NormalizationTables.hpp:TO_COMPOSED"]}
{"id": "C70", "title": "to_composed is memory safe", "statement": "to_composed never reads outside its table whatever code points the string contains.", "quantifier": "every valid string", "why_tests_cant": "reading one past the table normally goes unnoticed", "anchors": ["src/Ystring/Normalize.cpp:find_composed"]}
{"id": "C71", "title": "to_composed undoes to_decomposed on a character", "statement": "For every code point c with a two-element canonical decomposition, to_composed(to_decomposed(c)) = c.", "quantifier": "all code points with a decomposition", "why_tests_cant": "tests only sample a few literals; the claim ranges over all of them", "anchors": ["src/Ystring/Normalize.cpp:to_composed", "src/Ystring/Normalize.cpp:to_decomposed"]}
{"id": "C72", "title": "case_insensitive find_first_of / find_last_of", "statement": "The result is the first (last) code point of the searched part whose upper-case form equals that of a member of chars, with its byte range; an empty range when there is none; malformed text met on the way throws.", "quantifier": "all byte strings, character lists and offsets", "why_tests_cant": "ranges over all strings, all lists of 32-bit characters and all offsets", "anchors": ["src/Ystring/Algorithms.cpp: case_insensitive::find_first_of, case_insensitive::find_last_of", "src/Ystring/Char32Set.cpp: case_insensitive::contains"]}
{"id": "C73", "title": "find_first_of / find_last_of with a CodepointSet", "statement": "Both the case-sensitive and the case-insensitive overloads return the first (last) code point of the searched part that the set contains, with its byte range; an empty range when there is none; malformed text met on the way throws.", "quantifier": "all byte strings, all CodepointSets (negated or not) and all offsets", "why_tests_cant": "ranges over all strings, sets and offsets", "anchors": ["src/Ystring/Algorithms.cpp: find_first_of, find_last_of (CodepointSet overloads)", "include/Ystring/CodepointSet.hpp: CodepointSet"]}
{"id": "C74", "title": "find_first_escaped_char reports the extent of the first escape sequence", "statement": "From the offset on, the first backslash is found; a complete escape sequence is reported with its exact extent (always inside the string), a malformed one throws, and has_escaped_chars is true iff something is reported.", "quantifier": "every byte string and offset", "why_tests_cant": "five kinds of escape times every way of cutting them short", "anchors": ["src/Ystring/Unescape.cpp:find_first_escaped_char", "src/Ystring/Unescape.cpp:has_escaped_chars"]}
{"id": "C75", "title": "unescape_next decodes exactly one character", "statement": "unescape_next skips backslash-newline pairs, returns the code point the next literal or escape sequence denotes and reports whether it was an escape; everything that is not one throws; its behaviour is defined on every byte string.", "quantifier": "every byte string", "why_tests_cant": "ranges over all byte strings and all malformed escapes", "anchors": ["src/Ystring/Unescape.cpp:unescape_next", "src/Ystring/Unescape.cpp:extract_utf16_char", "src/Ystring/Unescape.cpp:extract_hex_char", "src/Ystring/Unescape.cpp:extract_oct_char"]}
{"id": "C76", "title": "to_decomposed is idempotent", "statement": "Whenever to_decomposed returns a text, decomposing that text again returns it unchanged.", "quantifier": "every byte string on which to_decomposed returns", "why_tests_cant": "ranges over all byte strings, i.e. over every sequence of the 2000-odd decomposable characters", "anchors": ["src/Ystring/Normalize.cpp: to_decomposed, decompose", "src/Ystring/NormalizationTables.hpp"]}
{"id": "C77", "title": "Composition keeps canonical equivalence", "statement": "When to_composed loses no text, decomposing its result gives the same text as decomposing its argument.", "quantifier": "every sequence of encoded code points below U+100000 on which both functions are defined", "why_tests_cant": "ranges over all texts, and relates two functions that use two different tables", "anchors": ["src/Ystring/Normalize.cpp: to_composed, to_decomposed"]}
{"id": "C78", "title": "Byte searches respect code point boundaries", "statement": "In valid text, find_first and find_last find a valid non-empty pattern only where its code points occur; the reported range starts and ends between code points. On encoded code point sequences find_first, find_last, starts_with and ends_with give exactly what the same search on the code points gives.", "quantifier": "every valid text, every valid non-empty pattern, every offset", "why_tests_cant": "ranges over all pairs of texts; a counterexample would be a pattern whose bytes straddle two code points", "anchors": ["src/Ystring/Algorithms.cpp: find_first, find_last, starts_with, ends_with", "include/Ystring/Algorithms.hpp"]}
{"id": "C79", "title": "Valid text in, valid text out", "statement": "No function turns valid text into invalid text: when all text arguments are valid, everything returned by case conversion, trimming, reversing, splitting, joining, appending, inserting, replacing, taking substrings, escaping, unescaping and normalising is valid, both in the sense of is_valid_utf8 and in the sense of RFC 3629.", "quantifier": "every valid text and every choice of the other arguments", "why_tests_cant": "ranges over all texts, patterns, positions and limits; one cut inside a code point anywhere breaks it", "anchors": ["src/Ystring/Algorithms.cpp", "include/Ystring/Algorithms.hpp", "src/Ystring/Escape.cpp: escape_json", "src/Ystring/Unescape.cpp: unescape", "src/Ystring/Normalize.cpp", "src/Ystring/ConvertCase.cpp"]}
{"id": "C80", "title": "Forward functions are defined and terminate on arbitrary bytes", "statement": "Every function that reads its text from the front, except unescape (C60), to_decomposed (C67) and to_composed (C70), ends, with a result or an exception, on every byte string: no undefined behaviour and no endless loop, however malformed the UTF-8 is, for every offset inside the text and every index.", "quantifier": "every byte string, every pattern, offset within the text, index, limit and predicate", "why_tests_cant": "ranges over all byte strings; an out-of-range read or an endless loop can hide behind any one malformed sequence", "anchors": ["src/Ystring/Algorithms.cpp", "include/Ystring/Algorithms.hpp", "src/Ystring/AlgorithmUtilities.cpp", "include/Ystring/DecodeUtf8.hpp", "src/Ystring/ConvertCase.cpp"]}
{"id": "C81", "title": "Returned ranges and positions lie inside the text", "statement": "Whatever the bytes, when a search returns a non-empty range it lies inside the text and on the requested side of the offset; positions are npos or at most the size; substrings and trimmed strings are contiguous pieces of the text.", "quantifier": "every byte string (valid or not), every pattern, offset, index and predicate", "why_tests_cant": "ranges over all byte strings and offsets; callers use the ranges unchecked", "anchors": ["src/Ystring/Algorithms.cpp", "include/Ystring/Algorithms.hpp", "src/Ystring/AlgorithmUtilities.cpp", "include/Ystring/DecodeUtf8.hpp", "src/Ystring/ConvertCase.cpp"]}
{"id": "C82", "title": "Backward functions are defined on arbitrary bytes", "statement": "Every function that reads its text from the back (find_last_*, trim_end, reverse, negative indices, case_insensitive ends_with/find_last/replace) ends with a result or an exception on every byte string.", "quantifier": "every byte string", "why_tests_cant": "ranges over all byte strings", "anchors": ["src/Ystring/Algorithms.cpp", "include/Ystring/Algorithms.hpp", "src/Ystring/AlgorithmUtilities.cpp", "include/Ystring/DecodeUtf8.hpp", "src/Ystring/ConvertCase.cpp", "include/Ystring/DecodeUtf8.hpp: decode_prev"]}
{"id": "C83", "title": "split undoes join", "statement": "Joining a list of strings with a separator and splitting the result at that separator gives the list back exactly when no separator shows up inside a part or across the end of a part; for a one-byte separator, exactly when the list is not empty and no part contains the byte. Splitting at characters (into lines) a list joined with one of the characters (with any newline) gives the list back exactly when it is not empty and every part is valid text without such a character (without a newline).", "quantifier": "every list of strings and every non-empty separator", "why_tests_cant": "ranges over all lists and separators, including self-overlapping separators", "anchors": ["src/Ystring/Algorithms.cpp: split, split_lines", "include/Ystring/Algorithms.hpp: split_where, join"]}
{"id": "C84", "title": "replace agrees with split and join", "statement": "Replacing every occurrence is splitting at the pattern and joining with the replacement; replacing a pattern by itself, or a pattern that does not occur, returns the text unchanged; the size of the result differs from the text by k times the difference of the sizes for some k within the limit.", "quantifier": "every text, pattern, replacement and limit", "why_tests_cant": "relates two different loops of the library on all inputs", "anchors": ["src/Ystring/Algorithms.cpp: replace, split", "include/Ystring/Algorithms.hpp: split_where, join"]}
{"id": "C85", "title": "Trimming is idempotent and its two halves commute", "statement": "Whenever trim_where returns a string, applying it again, or trim_start_where or trim_end_where, changes nothing more, and trimming the start first or the end first returns the same string; on valid text all of them return. trim_start_where and trim_end_where are idempotent on their own.", "quantifier": "every byte string and every predicate", "why_tests_cant": "ranges over all texts and all predicates", "anchors": ["src/Ystring/Algorithms.cpp: trim, trim_start, trim_end", "include/Ystring/Algorithms.hpp: trim_where, trim_start_where, trim_end_where"]}
{"id": "C86", "title": "Conversions distribute over concatenation", "statement": "Converting a concatenation gives the concatenation of the conversions: to_utf32, from_utf32, is_valid_utf8, count_codepoints, to_lower, to_upper, escape_json, and to_title when the first string does not end in a letter; so a text may be converted piece by piece, cut between code points.", "quantifier": "every valid first string and every second string (any bytes), all sequences of code points", "why_tests_cant": "ranges over all pairs of strings; a converter with hidden state would pass on whole strings", "anchors": ["src/Ystring/Utf32.cpp", "src/Ystring/Algorithms.cpp: is_valid_utf8, count_codepoints", "src/Ystring/ConvertCase.cpp", "src/Ystring/Escape.cpp: escape_json"]}
{"id": "C87", "title": "Case conversion stays within a case-insensitive class", "statement": "A text and its lower, upper or title case form compare equal when case is ignored, exactly when the text has none of: for lower case, the six code points U+0130, U+03F4, U+1E9E, U+2126, U+212A, U+212B; for upper case, U+00DF; for title case, the six inside a word and U+00DF at the start of one. Texts that compare equal when case is ignored have the same upper case form.", "quantifier": "every valid text up to U+10FFFF", "why_tests_cant": "depends on every pair of entries of the case tables; ranges over all texts", "anchors": ["src/Ystring/ConvertCase.cpp: to_lower, to_upper, to_title", "src/Ystring/Algorithms.cpp: case_insensitive::equal"]}
{"id": "C88", "title": "Stream output identifies what was printed", "statement": "Printing a Subrange writes its offset and length in decimal, and different Subranges are written differently; printing a CodepointSet writes valid UTF-8 with the ranges in order of addition, and different sets are written differently.", "quantifier": "every Subrange, every CodepointSet with ends up to U+10FFFF", "why_tests_cant": "ranges over all values; injectivity relates pairs of values", "anchors": ["src/Ystring/Subrange.cpp: operator<<", "src/Ystring/Char32Set.cpp: operator<<"]}
{"id": "C89", "title": "Every table searched by bisection is sorted", "statement": "The case, character class and normalization tables are strictly increasing in their search keys, so that std::lower_bound is defined on them, and bisection finds for every key the same element as a search from the front.", "quantifier": "every table and every key", "why_tests_cant": "one misplaced row makes some keys unreachable, which only exhaustive lookups would show; the bisection must be right for every key", "anchors": ["src/Ystring/LowerCaseTables.hpp", "src/Ystring/UpperCaseTables.hpp", "src/Ystring/TitleCaseTables.hpp", "src/Ystring/CharClassTables.hpp", "src/Ystring/NormalizationTables.hpp", "src/Ystring/ConvertCase.cpp: find_in_mapping", "src/Ystring/Normalize.cpp: find_composed"]}
{"id": "C90", "title": "A maximum of zero means what is documented", "statement": "replace, replace_codepoint and case_insensitive::replace with a maximum of 0 replacements replace all occurrences, as documented; the split functions with max_splits 0 return the whole text as one part.", "quantifier": "all strings, patterns, replacements and separators", "why_tests_cant": "must hold for every text and pattern", "anchors": ["include/Ystring/Algorithms.hpp: replace, split", "src/Ystring/Algorithms.cpp: replace, replace_codepoint, split"]}
{"id": "C91", "title": "No index, count or offset is undefined", "statement": "Every function taking an index, a count or an offset has defined behaviour for every value of its type: out-of-range values give empty results, npos or an exception.", "quantifier": "all strings, every size_t offset, every ptrdiff_t index and count", "why_tests_cant": "undefined behaviour can pass any test; the range of values is 2^64", "anchors": ["src/Ystring/Algorithms.cpp: find_first, find_first_where, get_codepoint_pos, get_codepoint_substring, insert_codepoint, insert_codepoints, replace, get_next_char_range", "src/Ystring/Algorithms.cpp: case_insensitive::find_first", "src/Ystring/Escape.cpp"]}
{"id": "C92", "title": "A Subrange denotes a piece of text", "statement": "Subranges are equal iff offset and length are; a Subrange made from two positions of a text starts and ends there, converts to true iff the piece is not empty, and substr with its offset and length is the piece; the default Subrange is empty and lies outside every text.", "quantifier": "every text and every pair of positions", "why_tests_cant": "ranges over all texts and positions; the end is computed with wrapping addition", "anchors": ["include/Ystring/Subrange.hpp: Subrange, operator=="]}
{"id": "C93", "title": "The character class constants mean what they document", "statement": "get_char_class returns the named constant of the code point's general category, and each combined constant (LETTER, MARK, NUMBER, ...) selects exactly the documented categories.", "quantifier": "every general category, every code point outside the ideograph ranges of C55", "why_tests_cant": "ranges over all categories and code points", "anchors": ["include/Ystring/CharClass.hpp: CharClass", "src/Ystring/CharClass.cpp: get_char_class"]}
{"id": "C94", "title": "Comparing code points without regard to case is consistent", "statement": "case_insensitive_equal is an equivalence, case_insensitive_less a strict weak order whose equivalence it is, and the sign of case_insensitive_compare agrees with both; each compares simple upper case mappings.", "quantifier": "all pairs and triples of 32-bit values; the sign of compare for values below 2^31", "why_tests_cant": "order laws relate all triples of values", "anchors": ["include/Ystring/CaseInsensitive.hpp: case_insensitive_compare, case_insensitive_equal, case_insensitive_less"]}
{"id": "C95", "title": "Functions that answer the same question agree", "statement": "contains(s, c) is whether find_first_of(s, c) finds something, with the same exceptions; starts_with and ends_with are whether find_first finds the pattern at the start and find_last at the end; find_first and find_last find something for the same strings. In encoded text, searching, splitting and inserting give the same with a code point and with the string that encodes it. Inserting at an index is replacing the empty range there. get_codepoint, get_codepoint_pos, get_codepoint_substring(k, k+1) denote the same code point, get_char_range, get_char_pos, get_char_substring(k, k+1), get_next_char_range and get_prev_char_range the same character; count_chars <= count_codepoints <= size.", "quantifier": "every string (valid where code points are searched or characters counted), every pattern, code point and index", "why_tests_cant": "relates pairs of functions on all strings, patterns and indices", "anchors": ["src/Ystring/Algorithms.cpp: contains, find_first, find_last, find_first_of, find_last_of, starts_with, ends_with, split, insert_codepoint, insert_codepoints, insert_char, insert_chars, replace_codepoints, replace_chars, get_codepoint, get_codepoint_pos, get_codepoint_substring, get_char_range, get_char_pos, get_char_substring, count_chars, count_codepoints"]}
{"id": "C96", "title": "Repeated searches visit every match exactly once, in order", "statement": "Calling find_first, find_first_of, find_first_where, find_first_newline or their case-insensitive versions again from the end of what they found visits exactly the places where split cuts the text, and ends; calling find_last_of, find_last_where, find_last_newline again from the start of what they found visits the same places in the opposite order. Calling get_next_char_range or get_prev_char_range this way visits every character, and pop_utf8_codepoint and pop_last_utf8_codepoint take off every code point.", "quantifier": "every text (any bytes for find_first), every pattern, set and predicate, any number of calls", "why_tests_cant": "an induction over the history of calls on texts of any size", "anchors": ["src/Ystring/Algorithms.cpp: find_first, find_first_of, find_last_of, find_first_newline, find_last_newline, split, split_lines, get_next_char_range, get_prev_char_range", "include/Ystring/Algorithms.hpp: find_first_where, find_last_where", "src/Ystring/Algorithms.cpp: case_insensitive::find_first, case_insensitive::find_first_of, case_insensitive::find_last_of, case_insensitive::split", "include/Ystring/DecodeUtf8.hpp: pop_utf8_codepoint, pop_last_utf8_codepoint"]}
{"id": "C97", "title": "Case-insensitive functions see pattern and text only up to case", "statement": "If case_insensitive::equal(p, q) is true then p and q may be exchanged as the pattern: case_insensitive::starts_with, ends_with, find_first and find_last (any offset), replace and split return the same, on any text and with any exception. Exchanging both arguments of compare, equal and less by equal texts does not change the result. Exchanging the searched text by an equal one does not change starts_with or ends_with, nor whether find_first and find_last find something, and what they find, and what precedes it, is equal but for case in the two texts.", "quantifier": "every pair of equal patterns and every string (valid or not) for patterns and comparisons; every pair of equal texts for searches; every offset, replacement and limit", "why_tests_cant": "ranges over all pairs of strings that are equal but for case, whose encodings may differ in length", "anchors": ["src/Ystring/Algorithms.cpp: case_insensitive::compare, case_insensitive::equal, case_insensitive::less, case_insensitive::starts_with, case_insensitive::ends_with, case_insensitive::find_first, case_insensitive::find_last, case_insensitive::replace, case_insensitive::split"]}
{"id": "C98", "title": "Ignoring case never loses a match", "statement": "Where starts_with, ends_with, find_first, find_last, find_first_of or find_last_of finds something, the case-insensitive version finds something too: not later for the first match, and not earlier for the last. The same holds for find_first_where and find_last_where with a predicate that is true for more code points.", "quantifier": "every text, non-empty pattern and offset; any string whatever for sets and predicates", "why_tests_cant": "relates two search functions on all texts and patterns", "anchors": ["src/Ystring/Algorithms.cpp: starts_with, ends_with, find_first, find_last, find_first_of, find_last_of", "include/Ystring/Algorithms.hpp: find_first_where, find_last_where", "src/Ystring/Algorithms.cpp: case_insensitive::starts_with, case_insensitive::ends_with, case_insensitive::find_first, case_insensitive::find_last, case_insensitive::find_first_of, case_insensitive::find_last_of"]}
{"id": "C99", "title": "Results have a bounded size", "statement": "to_lower, to_upper and to_title return at most 3/2 times as many bytes as they were given; escape_json returns between as many and six times as many, and as many only if it changed nothing; unescape and to_composed never return more; to_decomposed returns at most three times as many; to_utf32 returns n values from n to 4n bytes and from_utf32 at most 4n bytes from n values; replace_invalid_utf8 at most four times as many, three with the default replacement; reverse exactly as many.", "quantifier": "every byte string (below 4 GiB for replace_invalid_utf8) and every sequence of 32-bit values", "why_tests_cant": "a maximum over all strings; it depends on every entry of the case and decomposition tables", "anchors": ["src/Ystring/ConvertCase.cpp: to_lower, to_upper, to_title", "src/Ystring/Escape.cpp: escape_json", "src/Ystring/Unescape.cpp: unescape", "src/Ystring/Normalize.cpp: to_decomposed, to_composed", "src/Ystring/Utf32.cpp: to_utf32, from_utf32", "src/Ystring/Algorithms.cpp: replace_invalid_utf8, reverse"]}
{"id": "C100", "title": "Composing twice is composing once", "statement": "Whenever to_composed returns a text, to_composed of that text returns it unchanged.", "quantifier": "every byte string", "why_tests_cant": "it needs that no two neighbours in any result form a composable pair, including neighbours that were brought together by a lost character, whatever the text", "anchors": ["src/Ystring/Normalize.cpp: to_composed, find_composed"]}
{"id": "C101", "title": "A malformed pattern never matches, case-insensitively", "statement": "In namespace case_insensitive, a pattern that is not valid UTF-8 is never found (find_first, find_last), never equal to anything (equal, compare, in either argument), never a beginning or an end (starts_with, ends_with), and replace and split with it change nothing; the call either says 'no match' or throws, and throws exactly when it has to read the malformed sequence.", "quantifier": "every text, every pattern that is not valid UTF-8, every offset, count and limit", "why_tests_cant": "whether the malformed bytes are reached depends on how far the pattern's valid part matches at every position of the text", "anchors": ["src/Ystring/Algorithms.cpp: case_insensitive::find_first, case_insensitive::find_last, case_insensitive::starts_with, case_insensitive::ends_with, case_insensitive::equal, case_insensitive::compare, case_insensitive::replace, case_insensitive::split"]}
{"id": "C102", "title": "What the offset of a search means", "statement": "A forward search (find_first, find_first_where, find_first_of, find_first_newline, get_next_char_range, and the case_insensitive ones) from an offset gives exactly the result of searching the rest of the text on its own, with the range moved by the offset: nothing before the offset matters. A backward search (find_last, find_last_where, find_last_of, find_last_newline, get_prev_char_range, and the case_insensitive ones) from an offset gives the result of searching only the text before it: nothing after the offset matters, and an offset beyond the end is the end. A substring found from one offset is what is found from every offset between that one and the match.", "quantifier": "every byte string (valid or not), every split of it in two, every offset, pattern, predicate and set", "why_tests_cant": "that decoding never looks across the offset must hold for every cut, including cuts inside a multi-byte sequence", "anchors": ["src/Ystring/Algorithms.cpp: find_first, find_last, find_first_where, find_last_where, find_first_of, find_last_of, find_first_newline, find_last_newline, get_next_char_range, get_prev_char_range", "src/Ystring/Algorithms.cpp: case_insensitive::find_first, case_insensitive::find_last, case_insensitive::find_first_of, case_insensitive::find_last_of"]}
{"id": "C103", "title": "Edits by index can be read back and undone", "statement": "The part before any index and the part from it on make up the string. Replacing a slice by itself changes nothing, except for the combinations of signs of the two indices with which slices are wrong (C27, C30). After insert_codepoints(s, k, t) with m code points in t, the code points k..k+m-1 are t, the count has grown by m, and deleting them gives s back (also with negative indices); get_codepoint(k) gives the code point insert_codepoint put there. After replace_codepoints(s, i, j, t), replacing the m code points of t by the old slice gives s back. The same for characters when the new text does not combine with its neighbours.", "quantifier": "every valid text (the parts: every byte string shorter than 2^32 - 1 bytes; replacing by itself: every byte string), every index within the text, every inserted text", "why_tests_cant": "it relates several functions that each resolve the indices on their own, for every text and every index", "anchors": ["src/Ystring/Algorithms.cpp: get_codepoint_substring, insert_codepoint, insert_codepoints, replace_codepoints, get_char_substring, replace_chars, count_codepoints, get_codepoint"]}
{"id": "C104", "title": "What each function does to the number of code points and characters", "statement": "count_chars(s) is the number of code points of s that are no combining mark (category Mn, Mc, Me), plus one if s starts with a mark. Concatenation adds the code point counts, and the character counts less one if the second text starts with a mark. to_lower keeps both counts. to_upper adds one to both for each U+00DF, and makes each U+0345 that marks a character a character of its own; it changes the counts in no other way. replace_codepoint keeps the code point count. reverse keeps the code point count, and the character count unless the text starts with a mark and has more than one character: then it is one less.", "quantifier": "every valid text (code points up to U+10FFFF for the case functions), every pair of code points and every limit above -2^63 for replace_codepoint (negating -2^63 is undefined: C91)", "why_tests_cant": "it relates counts before and after a transformation for every text; the exceptions depend on single code points of the Unicode tables", "anchors": ["src/Ystring/Algorithms.cpp: count_chars, count_codepoints, replace_codepoint, reverse", "src/Ystring/ConvertCase.cpp: to_lower, to_upper", "src/Ystring/CharClass.cpp"]}
{"id": "C105", "title": "Character classes follow every Unicode data file the tables are regenerated from", "statement": "For every data file whose lines are in increasing order of code point, below U+200000, and list all of ASCII, the generator finishes and the two arrays it writes make get_char_class return, for every code point below 2^21, the category of its own line, or of the two equal lines around it if the second is one of the twelve known range ends, and unassigned otherwise. All numbers fit in 32 bits. The shipped header is exactly what the generator makes of UnicodeData16.0.0.txt.", "quantifier": "every list of (code point, category) lines in increasing order; every code point below 2^21", "why_tests_cant": "tests see one version of Unicode; the run-length encoding with alternating and paired ranges must be right for every arrangement of categories", "anchors": ["tools/unicode_character_tables/make_char_class_file.py: get_class_ranges, optimize_alternating_case, optimize_unassigned, encode_value, make_table_rows, get_ascii_table, main", "src/Ystring/CharClass.cpp: get_char_class, decode_char_class", "src/Ystring/CharClassTables.hpp"]}
{"id": "C106", "title": "Case conversion follows every Unicode data file the tables are regenerated from", "statement": "For every data file whose lines are in increasing order, with values below 2^32, the compact and plain tables the generator writes make the table look-up of to_upper, to_lower and to_title return the mapping of the code point's line, and the code point itself when no line maps it. The three shipped headers are exactly what the generator makes of UnicodeData16.0.0.txt.", "quantifier": "every list of (code point, mapped code point) lines in increasing order; every 32-bit value", "why_tests_cant": "the compact form (segments of 32 code points, most frequent difference, bit sets) must be right for every arrangement of mappings and for all 2^32 arguments", "anchors": ["tools/unicode_character_tables/make_case_convert_file.py: get_most_prevalent_diff, make_diff_set, write_cpp, main", "src/Ystring/ConvertCase.cpp: convert, find_in_compact_mapping, find_in_mapping", "src/Ystring/CharMappingTypes.hpp: CompactCharMapping::get", "src/Ystring/UpperCaseTables.hpp", "src/Ystring/LowerCaseTables.hpp", "src/Ystring/TitleCaseTables.hpp"]}
{"id": "C107", "title": "Decomposition follows every Unicode data file the tables are regenerated from", "statement": "For every list of two-element canonical decompositions of code points from U+00C0, in increasing order and below U+100000, the table the generator writes makes the look-up used by decompose return the listed pair, and the code point itself with no mark when none is listed. The shipped header is exactly what the generator makes of UnicodeData16.0.0.txt.", "quantifier": "every list of rules in increasing order; every code point", "why_tests_cant": "it ranges over all rule lists and all code points", "anchors": ["tools/unicode_character_tables/make_normalization_file.py: encode_decomposed, make_decomposed_table_rows", "src/Ystring/Normalize.cpp: find_decomposed", "src/Ystring/NormalizationTables.hpp"]}
{"id": "C108", "title": "Composition follows every Unicode data file the tables are regenerated from", "statement": "For every list of two-element canonical decompositions below U+100000 with distinct pairs, the table the generator writes makes the look-up used by compose return the code point whose decomposition is the given pair, and nothing when the pair is not listed.", "quantifier": "every list of rules; every pair of code points", "why_tests_cant": "it ranges over all rule lists and all pairs; the failures need particular distances between listed pairs", "anchors": ["tools/unicode_character_tables/make_normalization_file.py: encode_composed, make_composed_table_rows", "src/Ystring/Normalize.cpp: find_composed", "src/Ystring/NormalizationTables.hpp"]}
{"id": "C109", "title": "Predicates and finders are asked in order, once each, and their exceptions pass through", "statement": "find_first_where, trim_start_where (left to right) and find_last_where, trim_end_where (right to left) ask the predicate about the code points of the text one after the other, each once, and about none behind the one that decides; the answers decide the result, an exception of the predicate is the function's exception, and malformed bytes are reported only after the predicate was asked about everything before them. trim_where does the start and then the end of what is left, with a fresh copy of the predicate. split_where and TokenIterator::next call the finder first with the text and then with what follows each token found, and not any more when it found none, threw, or the limit is reached. This holds for predicates and finders with internal state, side effects and exceptions; for pure ones it agrees with the other properties.", "quantifier": "every predicate or finder, as a function of its argument and a state of any type, returning or throwing; every text, offset, limit and start state", "why_tests_cant": "it ranges over all callbacks, with all possible states and exceptions, and all call histories", "anchors": ["include/Ystring/Algorithms.hpp: find_first_where, find_last_where, trim_start_where, trim_end_where, trim_where, split_where", "include/Ystring/TokenIterator.hpp: TokenIterator::next"]}
{"id": "C110", "title": "After an exception of the finder next() can be tried again", "statement": "If the finder throws during TokenIterator::next(), the iterator is as it was before the call: part, token and remainder are the same, and another next() searches the same text.", "quantifier": "every finder, text, and point of the iteration at which the finder throws", "why_tests_cant": "it ranges over all finders and all points at which they throw", "anchors": ["include/Ystring/TokenIterator.hpp: TokenIterator::next, TokenIterator::remainder"]}
{"id": "C111", "title": "After an exception the caller's variables keep their values", "statement": "The functions that change variables of the caller (safe_decode_next and safe_decode_prev: iterator and character; pop_utf8_codepoint, pop_last_utf8_codepoint, unescape_next: the view; append: the string; unescape(char*, size_t): the buffer) change them only as their result says: by exactly the code point read, taken off or appended when they succeed, not at all when there was nothing to read, and not at all when they throw.", "quantifier": "every text, well formed or not, every position in it and every earlier value of the variables", "why_tests_cant": "it ranges over all byte strings and all points at which the functions can throw", "anchors": ["include/Ystring/DecodeUtf8.hpp: safe_decode_next, safe_decode_prev, pop_utf8_codepoint, pop_last_utf8_codepoint", "include/Ystring/Algorithms.hpp: append", "include/Ystring/Unescape.hpp: unescape_next, unescape"]}
{"id": "C112", "title": "Returned views are windows of the argument", "statement": "The string_views returned by trim*, get_codepoint_substring, get_char_substring, split* (also the case insensitive ones) and TokenIterator refer to the bytes of the argument itself: a view starts exactly where its first byte is in the argument and ends where its last byte ends; the parts of a split are the places between the separators, in ascending order; an empty result is an empty view at its place in the argument.", "quantifier": "every array, every view in it, every predicate, finder, index pair and limit", "why_tests_cant": "it is about addresses, for all texts and callbacks; equality of contents, which tests compare, does not show it", "anchors": ["include/Ystring/Algorithms.hpp: trim, trim_start, trim_end, trim_where, get_codepoint_substring, get_char_substring, split, split_where, split_lines", "src/Ystring/Algorithms.cpp: case_insensitive::split", "include/Ystring/TokenIterator.hpp: TokenIterator"]}
{"id": "C113", "title": "Exceptions say what is wrong and where", "statement": "The message of every exception about an escape sequence or a code point has the form file:line: text. For find_first_escaped_char, has_escaped_chars and unescape the text names the byte offset, in decimal and counted in the text passed by the caller, of the backslash that starts the sequence rejected, and calls it incomplete if the text ends right after it and invalid otherwise. For unescape_next the text says how many hexadecimal digits were needed and how many there are, or that the sequence is incomplete, or that the UTF-8 is invalid. append, insert_codepoint and replace_codepoint name the code point that does not exist in decimal, replace_codepoint the one to be replaced first; insert_codepoint(s) with a position that does not exist says so.", "quantifier": "every text, offset, escape sequence, code point and position; every spelling of the source file's name", "why_tests_cant": "the offset must be right for every text, in particular after any number of sequences that have been rewritten in place", "anchors": ["src/Ystring/Unescape.cpp: find_first_escaped_char, has_escaped_chars, unescape, unescape_next, extract_hex_char", "src/Ystring/Algorithms.cpp: append, replace_codepoint", "src/Ystring/AlgorithmUtilities.cpp: insert_at_offset", "include/Ystring/YstringException.hpp: YSTRING_THROW", "include/Ystring/DecodeUtf8.hpp: safe_decode_next"]}
{"id": "C114", "title": "Case conversion and taking texts apart can be swapped", "statement": "For to_lower and to_upper: splitting the converted text at a set of code points, at a separator string or at newlines gives the converted parts of the original, part by part, for every limit on the number of parts, with and without empty parts; trimming the converted text gives the converted trimmed text; converting a joined text gives the converted parts joined with the converted delimiter. The separators must be respected by the conversion: separators, and nothing else, become separators, which holds for every set of code points that are neither letters, marks, letter-like numbers nor other symbols. For to_title splitting and trimming can be swapped when no separator is a letter. reverse, get_char_substring and get_codepoint_substring can be swapped with to_lower, and with to_upper when the text has no U+00DF (and, for reverse and characters, no U+0345).", "quantifier": "every text the conversion accepts, every set of separators or separator string as described, every limit and pair of indices (of the sign combinations for which C26/C27 hold)", "why_tests_cant": "it relates two computations on all texts and depends on the whole case tables: one mapping into or out of a separator, or from a mark to a letter, breaks it", "anchors": ["src/Ystring/ConvertCase.cpp: to_lower, to_upper, to_title", "src/Ystring/Algorithms.cpp: split, split_lines, trim, trim_start, trim_end, reverse, get_codepoint_substring, get_char_substring", "include/Ystring/Algorithms.hpp: join"]}
{"id": "C115", "title": "Canonical decomposition and taking texts apart can be swapped", "statement": "The decomposition of a concatenation, or of joined texts, is the concatenation (join) of the decompositions. Splitting the decomposed text at a set of code points, a separator string or newlines gives the decomposed parts of the original, and trimming the decomposed trimmed text, whenever no separator has or occurs in a canonical decomposition; that includes the newlines and every ASCII character but the letters and < = >. Decomposition keeps the number of characters, reverse and character substrings, except for U+16D68, U+16D69 (one character becomes two) and U+16D6A (three).", "quantifier": "every text to_decomposed returns a result for, every set of separators or separator string as described, every limit and pair of indices (of the sign combinations for which C27 holds)", "why_tests_cant": "it relates two computations on all texts and depends on every entry of the decomposition table and on the category of every code point in it", "anchors": ["src/Ystring/Normalize.cpp: to_decomposed", "src/Ystring/Algorithms.cpp: split, split_lines, trim, reverse, count_chars, get_char_substring", "include/Ystring/Algorithms.hpp: join"]}
{"id": "C116", "title": "Case conversion and canonical decomposition can be swapped", "statement": "Decomposing a text and then converting it to lower (upper) case gives the same string as converting it first and then decomposing it, for every text without one of the code points for which the Unicode data itself makes the two orders differ: U+0130 and U+212B for lower case; 84 listed letters without simple upper case or with an iota subscript for upper case. For a text that is just one of these code points the two orders give different strings, so none of them is excepted needlessly. Texts that are equal but for case have decompositions that are equal but for case, without any exception.", "quantifier": "every text that to_decomposed returns a result for and the case conversion accepts", "why_tests_cant": "it relates two computations on all texts and depends on every entry of the case tables and of the decomposition table together", "anchors": ["src/Ystring/Normalize.cpp: to_decomposed", "src/Ystring/ConvertCase.cpp: to_lower, to_upper", "src/Ystring/Algorithms.cpp: case_insensitive::equal"]}
{"id": "C117", "title": "Escaped texts can be put together", "statement": "Putting the result of escape_json (or any text without a backslash) in front of a text t and unescaping gives the original text followed by unescape(t); if unescape(t) throws, so does the whole. So a template with escaped texts inserted gives back the inserted texts wherever they stand, for any number of insertions. In general unescape(s + t) is unescape(s) + unescape(t) unless s ends in a hexadecimal digit or just after the first half of a surrogate pair, where t could continue the last escape sequence. Calling unescape_next repeatedly gives the code points of the escaped text and then those of t, whatever t is.", "quantifier": "all texts s, t, and all lists of inserted texts (within memory)", "why_tests_cant": "an escape sequence of variable length or a surrogate pair can be continued by what follows, so it depends on every pair of texts", "anchors": ["src/Ystring/Escape.cpp: escape_json", "src/Ystring/Unescape.cpp: unescape, unescape_next"]}
{"id": "C118", "title": "Templates are filled in as written", "statement": "For every template made of lines with markers [[[key]]] and every dictionary, the template processor that writes the generated headers replaces a marker by its value, writes a list one element per line with every element in the column of the marker, and leaves out a line that has only a marker for an empty value; everything else is copied, except that white space at the end of lines is removed. A key that the dictionary lacks is an error. (Violated in three cases, where all elements of a list but the first are in a wrong column: behind a line that is left out, behind a list of one element in the same line, and behind a value with line feeds in the same line.)", "quantifier": "all templates whose lines have plain markers, all dictionaries; at most one list of more than one element in a line", "why_tests_cant": "templates and values are unbounded; the processor's column counter carries over from line to line", "anchors": ["tools/unicode_character_tables/codegen.py: _tokenize, TemplateProcessor, DictExpander, make_lines, make_text"]}
{"id": "C119", "title": "The generated headers say what the data file says", "statement": "For every data file in the format of UnicodeData.txt (15 fields, LF or CR LF line ends), the text that make_char_class_file.py, make_case_convert_file.py and make_normalization_file.py print is a C++ header with the two expected array definitions; read as C++ (there is one way to read them), the arrays hold numbers that fit their element types, and looking code points up in them gives the category, the simple case mapping or the canonical decomposition that the file states, for every code point. From every file that says what UnicodeData16.0.0.txt says, the printed text is the shipped header, byte for byte.", "quantifier": "all data files in the format whose lines are in increasing order and whose values are in range, all dates, all code points", "why_tests_cant": "the project has no tests of the generators; a data file of a new Unicode version is an arbitrary input", "anchors": ["tools/unicode_character_tables/make_char_class_file.py", "tools/unicode_character_tables/make_case_convert_file.py", "tools/unicode_character_tables/make_normalization_file.py", "src/Ystring/CharClassTables.hpp", "src/Ystring/LowerCaseTables.hpp", "src/Ystring/TitleCaseTables.hpp", "src/Ystring/UpperCaseTables.hpp", "src/Ystring/NormalizationTables.hpp"]}
{"id": "C120", "title": "Running out of memory leaves the caller's objects as they were", "statement": "If memory runs out (std::bad_alloc, or std::length_error) at any point of append(std::string&, c), replace_invalid_utf8(std::string&, c), CodepointSet::add_range, add_codepoint or add_codepoints, the exception leaves the function and the string or set is as it was before the call; if memory suffices the call has its full effect. Other functions do not let objects of the caller grow.", "quantifier": "every string, set, code point and list of code points, and every point at which memory runs out", "why_tests_cant": "allocation failures are not under the control of a test and every allocation is a separate crash point", "anchors": ["src/Ystring/Algorithms.cpp:append", "src/Ystring/EncodeUtf8.hpp:encode_utf8", "src/Ystring/Char32Set.cpp:CodepointSet::add_range", "src/Ystring/Char32Set.cpp:CodepointSet::add_codepoint", "src/Ystring/Char32Set.cpp:CodepointSet::add_codepoints", "src/Ystring/Algorithms.cpp:replace_invalid_utf8"]}
{"id": "C121", "title": "Pieces of pieces are pieces", "statement": "For get_codepoint_substring and get_char_substring: a piece of a piece is the piece of the whole text with the indices added (and cut off at the end of the first piece); two adjacent pieces put together are the piece from the start of the first to the end of the second; index i - n, counted from the end, is the same as index i when the text has n code points (characters); a piece of two texts put together is the piece of the first followed by the piece of the second with the indices reduced by the number of code points (characters) of the first, and positions in the second text are moved by the size of the first. By characters the last needs a second text that does not start with a combining mark.", "quantifier": "all texts (for code points, where nothing is concatenated, all byte strings up to 4 GiB), all indices of the sign combinations for which C26 and C27 hold", "why_tests_cant": "relations between calls for all texts and all index quadruples", "anchors": ["src/Ystring/Algorithms.cpp:get_codepoint_substring", "src/Ystring/Algorithms.cpp:get_char_substring", "src/Ystring/Algorithms.cpp:get_codepoint_pos", "src/Ystring/Algorithms.cpp:get_char_pos", "src/Ystring/Algorithms.cpp:count_codepoints", "src/Ystring/Algorithms.cpp:count_chars"]}
{"id": "C122", "title": "Conditions, assignments and alignment in templates", "statement": "make_lines and make_text of the code generator: of every IF/ELIF/ELSE/ENDIF block, at any nesting depth, exactly the lines of the first branch whose condition is true are used (those of ELSE if there is none, nothing if there is no ELSE), and the result is that of the template with only these lines; only the conditions on the way to these lines need to be in the dictionary. 0, empty texts, empty lists and None are false. A template whose blocks do not nest properly is an error. SET gives a key a value for the rest of the template and leaves no line. What follows an alignment marker is put in the column marked before.", "quantifier": "all templates whose block markers stand alone in their lines, nested to any depth, all dictionaries; for SET any rest of the template; for alignment any texts", "why_tests_cant": "unbounded templates and nesting depths", "anchors": ["tools/unicode_character_tables/codegen.py:TemplateProcessor", "tools/unicode_character_tables/codegen.py:make_lines"]}
{"id": "C123", "title": "Texts joined into lines of limited width", "statement": "codegen.join(strings, line_width, sep, newline_sep): the non-empty strings are put into lines in their order, none lost and none twice, with sep between strings of one line and newline_sep at the end of every line but the last; no line is longer than line_width unless it has a single string; and a string starts a new line only if it does not fit on the line before, or fits but leaves no place for newline_sep while more strings follow.", "quantifier": "all lists of non-empty strings, widths and separators", "why_tests_cant": "unbounded lists and all combinations of lengths", "anchors": ["tools/unicode_character_tables/codegen.py:LineBuilder", "tools/unicode_character_tables/codegen.py:join"]}
{"id": "C124", "title": "Names made from texts", "statement": "codegen.variable_name(s) is the maximal parts of s without white space and without the characters that C++ names cannot have, with single underscores between them (so it has none at the ends and no two together); make_macro_name is the same of the upper-cased text. Both leave their own results unchanged.", "quantifier": "all ASCII texts", "why_tests_cant": "all texts", "anchors": ["tools/unicode_character_tables/codegen.py:variable_name", "tools/unicode_character_tables/codegen.py:make_macro_name", "tools/unicode_character_tables/codegen.py:_translate_to_space"]}
{"id": "C125", "title": "Valid text is never rejected", "statement": "On text that is valid UTF-8 no function throws because of the text, whatever its other arguments are: scanning, views, searching, newlines, trimming, taking code points and characters, splitting, replacing and comparing or searching without regard to case all return, and normalising never throws. insert_codepoint and insert_char return if the place exists. Functions that read the whole text throw on text that is not valid; functions that work on bytes return on every text. Exceptions, stated as refuted claims: case conversion rejects numbers above U+10FFFF that is_valid_utf8 accepts, and replace_codepoints with a start counted from the end and an end counted from the start can throw.", "quantifier": "all valid texts and all other arguments: every index except the most negative one (C91), every offset between two code points or (searching backwards) beyond the end, patterns of any bytes (valid ones for the case-insensitive functions), code points to be inserted or replaced that exist", "why_tests_cant": "all texts and all arguments; absence of an exception", "anchors": ["src/Ystring/Algorithms.cpp", "include/Ystring/DecodeUtf8.hpp", "src/Ystring/AlgorithmUtilities.cpp", "src/Ystring/ConvertCase.cpp", "src/Ystring/Algorithms.cpp: namespace case_insensitive", "src/Ystring/Normalize.cpp"]}
{"id": "C126", "title": "Exceptions about malformed text say so", "statement": "Whenever a function that reads text as UTF-8 throws a YstringException because of the text, what() is the name of a source file, a line number and 'Invalid UTF-8 string.': taking code points and characters, contains, find_*_of, find_*_where, the newline searches, trimming, splitting, counting, reversing, replacing characters, all the case-insensitive functions and normalisation throw no other message. Case conversion names the first thing it can not convert, malformed bytes in the same words or a code point above U+10FFFF in decimal. insert_char and insert_chars complain first about malformed text, then about a position that does not exist, then about a code point that does not exist.", "quantifier": "every byte string and all other arguments; every spelling of the source files' names", "why_tests_cant": "every malformed byte string in every function, and that no other message is thrown", "anchors": ["include/Ystring/DecodeUtf8.hpp: safe_decode_next, safe_decode_prev", "include/Ystring/YstringException.hpp: YSTRING_THROW", "src/Ystring/Algorithms.cpp", "src/Ystring/AlgorithmUtilities.cpp: insert_at_offset", "src/Ystring/ConvertCase.cpp"]}
{"id": "C127", "title": "to_decomposed gives normalization form D", "statement": "to_decomposed of a text is its Unicode normalization form D: every code point replaced by its full canonical decomposition (listed pairs, listed single code points, Hangul syllables) and combining marks in canonical order. FALSE of the code: code points with a one-element decomposition and Hangul syllables are left as they are, and marks are not reordered; the result is form D exactly if the text has none of those and the marks come out in order. So canonically equivalent texts need not have the same decomposition.", "quantifier": "every text on which to_decomposed returns", "why_tests_cant": "every text; the existence and uniqueness of form D needs a confluence argument over all orders of swapping marks", "anchors": ["include/Ystring/Normalize.hpp: to_decomposed", "src/Ystring/Normalize.cpp: to_decomposed, decompose", "README.md: normalization", "data/unicode/UnicodeData16.0.0.txt"]}
{"id": "C128", "title": "Normalizing gives a canonically equivalent text", "statement": "The results of to_decomposed and to_composed are canonically equivalent to the text: they have the same normalization form D. to_decomposed has this property whenever it returns. to_composed has it exactly if no character is lost and no code point from U+100000 on is mixed into the one before it: FALSE of the code for texts like A U+0308 b, which becomes U+00C4, and @ U+100300, which becomes U+00C0.", "quantifier": "every text on which to_decomposed returns; every text on which to_composed is defined", "why_tests_cant": "every text; equivalence compares texts after an unbounded reordering", "anchors": ["include/Ystring/Normalize.hpp: to_decomposed, to_composed", "src/Ystring/Normalize.cpp", "data/unicode/UnicodeData16.0.0.txt"]}
{"id": "C129", "title": "What a template asks of its expander", "statement": "An object or function given instead of a dictionary is called once for each marker, in the order of the template, with the key, the parameters (split at commas, without white space around them) and a context: the blanks the line starts with and the number of bytes in it so far. Its answers are written where the markers are. Markers in a branch that is not taken are not asked, SET is passed on (and ignored if a function expander has no assign function), methods get the context added to that of their object, and a function or object that answers like a dictionary gives the same text as the dictionary. (Violated: behind a line that is left out, the number in the context includes the width of that line.)", "quantifier": "all expanders with any state, all templates; for the calls: lines with markers with or without parameters and answers of one line", "why_tests_cant": "expanders are arbitrary functions with arbitrary effects; templates are unbounded", "anchors": ["tools/unicode_character_tables/codegen.py: Expander, DictExpander, FuncExpander, TemplateProcessor._expand, TemplateProcessor._split_key, make_lines"]}
{"id": "C130", "title": "Encoded texts are ordered like their code points", "statement": "For sequences of code points up to U+10FFFF, comparing from_utf32(a) and from_utf32(b) as std::string (bytes as unsigned numbers, lexicographically) gives the same as comparing a and b; so comparing two texts in RFC 3629 form gives the same as comparing to_utf32 of them. The sign of case_insensitive::compare(a, b) is that of comparing to_upper(a) with to_upper(b), if neither contains U+00DF.", "quantifier": "all pairs of code point sequences; all pairs of RFC 3629 texts; all pairs of valid texts without U+00DF", "why_tests_cant": "all pairs of texts of any length; sorted containers of texts depend on every pair", "anchors": ["src/Ystring/Utf32.cpp: from_utf32, to_utf32", "src/Ystring/EncodeUtf8.hpp: encode_utf8", "src/Ystring/Algorithms.cpp: case_insensitive::compare", "src/Ystring/ConvertCase.cpp: to_upper"]}
{"id": "C131", "title": "Editing encoded texts is editing code point sequences", "statement": "On texts made by from_utf32, replace (any limit, from either end, non-empty pattern), split at a non-empty separator (any limit from 1, empty parts kept), join and the trim_where functions give the encoded result of the same operation on the code points: leftmost-first (rightmost-first) replacement, leftmost-first cutting, joining, dropping code points that satisfy the predicate from the ends. No code point is torn apart or made from pieces of others.", "quantifier": "all code point sequences up to U+10FFFF as text, pattern, replacement and separator; all predicates; all limits from 1 for split; all limits above -2^63 for replace", "why_tests_cant": "texts, patterns and limits are unbounded; that no match straddles code points must hold for every pair", "anchors": ["src/Ystring/Algorithms.cpp: replace, split", "src/Ystring/AlgorithmUtilities.cpp: find_last_n", "include/Ystring/Algorithms.hpp: join, trim_where, trim_start_where, trim_end_where, split_where"]}
{"id": "C132", "title": "Searching and indexing encoded texts is searching and indexing code point sequences", "statement": "On texts made by from_utf32, starts_with, ends_with, contains, find_first and find_last (from any code point boundary) answer for the code point sequences; count_codepoints, get_codepoint_pos, get_codepoint, get_codepoint_substring, replace_codepoints, insert_codepoint(s), to_lower and to_upper do to the text what the same operation does to the sequence (negative indices from the end, clamped); and the functions on characters (count_chars, get_char_pos, get_char_substring, replace_chars, insert_char(s), reverse) do it to the sequence of groups of one code point and the marks behind it. For substrings and replacements this is claimed for the pairs of indices that C26, C27 and C30 find right.", "quantifier": "all code point sequences up to U+10FFFF as text, pattern, replacement and insertion; all indices (above -2^63 for code points)", "why_tests_cant": "texts and patterns are unbounded; that no match straddles code points must hold for every pair, and that no index falls between the bytes of one for every index", "anchors": ["src/Ystring/Utf32.cpp: from_utf32", "src/Ystring/Algorithms.cpp: starts_with, ends_with, contains, find_first, find_last, count_codepoints, get_codepoint, get_codepoint_pos, get_codepoint_substring, replace_codepoints, insert_codepoint, insert_codepoints, count_chars, get_char_pos, get_char_substring, replace_chars, insert_char, insert_chars, reverse", "src/Ystring/ConvertCase.cpp: to_lower, to_upper"]}
{"id": "C133", "title": "Printing to a stream in any state", "statement": "operator<< of Subrange and CodepointSet, on a good stream with any width, fill character, adjustment, base, showbase and uppercase flags, writes the opening ('{offset: ', '[' or '[^') filled up to the width on the side the adjustment says, and the rest unfilled, numbers in the stream's base with its prefix and case. Afterwards the width is 0 and all other settings are as before. If the stream buffer takes only n more bytes, the first n bytes are written and the stream is not good any more; on a stream that is not good nothing happens. Different Subranges are written differently to the same stream, and in the default state the text is that of C88.", "quantifier": "all streams (text written so far, state, room, flags, width, fill character), all Subranges and CodepointSets", "why_tests_cant": "the product of all flags, widths and numbers, and every point at which a stream buffer can be full", "anchors": ["src/Ystring/Subrange.cpp: operator<<", "src/Ystring/Char32Set.cpp: operator<<"]}
{"id": "C134", "title": "Text that arrives in pieces", "statement": "A program that appends each piece of a text to what it has held back, and then calls pop_utf8_codepoint until it returns nothing or throws, gets the same code points and holds back the same bytes at the end wherever the pieces begin and end, for any bytes. Nothing is held back at the end exactly if to_utf32 can convert the whole, and then the code points are those of to_utf32. What is held back in between tells whether the text can still become valid UTF-8: exactly if it is the beginning, but not all, of one sequence; it has at most three bytes then.", "quantifier": "all byte strings and all ways to divide them into pieces", "why_tests_cant": "the number of ways to divide a text grows exponentially with its length", "anchors": ["include/Ystring/DecodeUtf8.hpp: pop_utf8_codepoint", "src/Ystring/Utf32.cpp: to_utf32"]}
{"id": "C135", "title": "A list of strings stored as one", "statement": "Strings of any bytes, escaped with escape_json and joined with a separator that contains a control character, are given back by split and unescape, and different (non-empty) lists give different strings. A separator of one byte works for all lists only if it is a control character.", "quantifier": "all non-empty lists of byte strings and all separators that contain a control character", "why_tests_cant": "the strings can contain the separator, escape sequences or parts of either", "anchors": ["src/Ystring/Escape.cpp: escape_json", "include/Ystring/Algorithms.hpp: join", "src/Ystring/Algorithms.cpp: split", "src/Ystring/Unescape.cpp: unescape"]}
{"id": "C136", "title": "Splitting in stages", "statement": "Splitting at the characters of one set and then each part at those of a second set gives the same parts as splitting at both sets at once, with or without the empty parts. When empty parts are ignored, trimming the separators first makes no difference. Splitting at most n times and then splitting the last part, if there are more than n, gives the same parts (or the same exception) as splitting without a limit; also for split_lines and the case-insensitive functions.", "quantifier": "all byte strings, separators, sets of characters, limits and both values of ignore_empty", "why_tests_cant": "relates pairs of calls for every string, set and limit", "anchors": ["src/Ystring/Algorithms.cpp: split, split_lines, trim", "src/Ystring/Algorithms.cpp: case_insensitive::split"]}
{"id": "C137", "title": "Case conversion and the predicates agree", "statement": "to_lower changes the answer of none of the predicates except is_upper and is_lower, for any value of char32_t, nor do to_upper and to_title, except that they turn the mark U+0345 into a letter. is_upper code points are their own upper case and is_lower ones their own lower case; the lower case of an upper case letter, if it has one, is lower case, and no conversion makes a new letter of the wrong case. A string is unchanged by to_upper or to_lower exactly if none of its code points is changed and it is in shortest form; a converted string has no letter left that could be converted; and letters, marks, numbers and so on stay in their places, for to_upper if there is no U+00DF or U+0345.", "quantifier": "all 2^32 values of char32_t, all byte strings", "why_tests_cant": "relates three tables (classes, upper, lower) for every code point and lifts it to every string", "anchors": ["src/Ystring/ConvertCase.cpp: to_upper, to_lower, to_title", "include/Ystring/CodepointPredicates.hpp", "src/Ystring/CharClass.cpp: get_char_class"]}
{"id": "C138", "title": "Line ends can be made uniform", "statement": "Splitting a text into lines and joining the lines with one newline d gives a text with the same lines, in which every newline found by calling find_first_newline again and again is d, one fewer than there are lines. The text is unchanged exactly if all newlines found in it were d already, and two texts become equal exactly if they have the same lines.", "quantifier": "all byte strings, all newlines d (CR LF included), whatever follows the newline array in memory", "why_tests_cant": "combines three functions over every byte string, including CR LF pairs that could form at the joints", "anchors": ["src/Ystring/Algorithms.cpp: split_lines, find_first_newline", "include/Ystring/Algorithms.hpp: join"]}
{"id": "C139", "title": "Case-insensitive replace, split and join fit together", "statement": "case_insensitive::replace of every piece equals case_insensitive::split joined with the replacement (and throws exactly when the split throws). Replacing a pattern by another spelling of it gives a text that case_insensitive::equal calls equal to the original, for any number of replacements from either end. The parts of a text joined with any spelling of the separator have the same parts again and are equal to the text but for case. Texts equal but for case are split into parts equal but for case, with any limit, and stay equal but for case under the same replacement.", "quantifier": "all byte strings (valid texts where stated), all non-empty valid patterns, all limits and counts", "why_tests_cant": "relates three functions over all texts and all 1:1 and length-changing case pairs", "anchors": ["src/Ystring/Algorithms.cpp: case_insensitive::replace, case_insensitive::split, case_insensitive::equal", "include/Ystring/Algorithms.hpp: join"]}
{"id": "C140", "title": "Of two case conversions the last one counts", "statement": "Converting a code point or a string to one case and then to another gives the same as converting it to the second case directly, exactly unless a listed exception occurs: for upper after lower the six capitals that are not the upper case of their lower case (U+0130, U+03F4, U+1E9E, U+2126, U+212A, U+212B); for lower after upper the 23 small letters that are not the lower case of their upper case, and in strings U+00DF; for lower after title the same at the start of words; for upper after title the six capitals inside words; for title after lower and after upper also the Georgian letters at the start of words and code points that are not letters but have another case. In each of the six cases the condition is necessary and sufficient for every text.", "quantifier": "all code points below 2^32, all byte strings (malformed ones throw either way)", "why_tests_cant": "the exceptions are a complete list over all code points and all texts; tests can show members of the list, not that nothing is missing", "anchors": ["src/Ystring/ConvertCase.cpp: to_upper, to_lower, to_title", "include/Ystring/ConvertCase.hpp: to_upper, to_lower, to_title"]}
{"id": "C141", "title": "The words of a text", "statement": "split at a set of code points with ignore_empty returns exactly the words of the text, its longest non-empty stretches without those code points; it succeeds exactly for valid text. trim, trim_start and trim_end with the same set do not change the words (for any bytes). The words of two texts with at least one of the code points between them are those of the first and those of the second. The words joined with any non-empty sequence of those code points have the same words again and leave nothing to trim; two texts become the same this way exactly if they have the same words.", "quantifier": "all byte strings, all sets of code points, all gaps", "why_tests_cant": "a law relating split, trim and join over all texts and sets, including multi-byte and overlong forms", "anchors": ["src/Ystring/Algorithms.cpp: split, trim, trim_start, trim_end", "include/Ystring/Algorithms.hpp: join, SplitParams"]}
{"id": "C142", "title": "Replacing can be undone", "statement": "If a text has no byte in common with the non-empty replacement, then however many occurrences were replaced and from whichever end, replacing the replacement by the pattern everywhere (from either end) gives the original text back; so two such texts never become equal. If the replacement has no byte in common with the pattern, nothing is left to replace after replacing everywhere, and replacing again changes nothing. For replace_codepoint it is enough that the new code point does not occur in the valid text.", "quantifier": "all texts, patterns (also empty), replacements and numbers of replacements in both directions", "why_tests_cant": "a round trip over all texts, patterns, replacements and counts, including overlapping and multi-byte ones", "anchors": ["src/Ystring/Algorithms.cpp: replace", "include/Ystring/Algorithms.hpp: replace"]}
{"id": "C143", "title": "Quoted texts end where they should", "statement": "An escaped text between quotation marks is read, by any reader that takes a backslash to protect the next byte, up to exactly its closing quotation mark, whatever follows. A document of plain parts without quotation marks and quoted escaped texts between them is read back as exactly these parts, so the document determines the inserted texts and no text can pass for another or break out of its quotation marks. find_first_escapable_char and find_first_escaped_char, called in turn, lead from the opening quotation mark to the closing one, for every JSON string.", "quantifier": "all inserted byte strings, any number of them, all plain parts and all text that follows", "why_tests_cant": "injection safety is a claim about every inserted text in every context", "anchors": ["src/Ystring/Escape.cpp: escape_json, find_first_escapable_char", "include/Ystring/Escape.hpp: escape_json, find_first_escapable_char", "src/Ystring/Unescape.cpp: find_first_escaped_char"]}
{"id": "C144", "title": "Reversing mirrors the other functions", "statement": "For valid text without combining marks, reverse turns the start of a text into its end for every other function: reversing twice gives the text back; the reversal of a concatenation is the concatenation of the reversals in the opposite order; starts_with and ends_with of the reversed arguments exchange their answers; find_first and find_last, find_first_of and find_last_of, find the mirrored places, or both nothing; m replacements from the front correspond to m replacements from the back; trim_start corresponds to trim_end, trim to itself; splitting at single code points gives the reversed parts in the opposite order; join of reversed parts in the opposite order is the reversed join.", "quantifier": "all valid texts without combining marks, patterns, replacements, sets of characters, predicates and counts", "why_tests_cant": "relates eight pairs of functions on all texts; overlapping matches and overlong sequences are rare in tests", "anchors": ["src/Ystring/Algorithms.cpp: reverse, starts_with, ends_with, find_first, find_last, replace, trim_start, trim_end, split", "include/Ystring/Algorithms.hpp: reverse, join, find_first_of, find_last_of, trim_start_where, trim_end_where"]}
{"id": "C145", "title": "Edits at different places do not disturb each other", "statement": "Any number of edits (code points i to j-1 become t) that are in ascending order and do not overlap can be carried out by replace_codepoints from the last to the first with their own indices, from the first to the last with indices moved by what the text has grown (by count_codepoints of the inserted texts), or from the first to the last with indices counted from the end and never moved: the result is the same, the text with each of these pieces replaced and the rest untouched. The same for replace_chars and count_chars when neither the text nor an inserted text starts with a combining mark.", "quantifier": "all valid texts, all numbers of edits, all ascending non-overlapping ranges, all inserted valid texts", "why_tests_cant": "the number of edits and every combination of lengths are unbounded; the property relates three histories of calls", "anchors": ["src/Ystring/Algorithms.cpp: replace_codepoints, replace_chars, count_chars", "src/Ystring/AlgorithmUtilities.cpp: replace_subrange, get_codepoint_substring_range", "include/Ystring/Algorithms.hpp: replace_codepoints, replace_chars"]}
{"id": "C146", "title": "Replacements in a row", "statement": "m replacements and then n more from the same end are m + n replacements, when pattern and replacement are not empty and have no byte - in valid text: no code point - in common. Replacing by a placeholder without a byte of the text, and all placeholders by something else, is replacing at once, for any number of replacements from any end. Different code points can be replaced in either order, any number of each from either end, when neither is what the other becomes.", "quantifier": "all texts, patterns, replacements, placeholders and numbers of replacements under the conditions stated", "why_tests_cant": "relates histories of two calls for all texts; new matches across the seams are the rare cases", "anchors": ["src/Ystring/Algorithms.cpp: replace, replace_codepoint, find_last_n", "include/Ystring/Algorithms.hpp: replace, replace_codepoint"]}
{"id": "C147", "title": "What was found can be edited by its index", "statement": "When find_first or find_last finds a valid non-empty text at byte i of a valid text, the number k of code points in front of i (count_codepoints of the prefix) is its index: get_codepoint_pos(k) is i, get_codepoint_substring(k, k+m) is the text found (m its number of code points), and replace_codepoints and insert_codepoints there do what replace does with that occurrence (limit 1 and -1). get_codepoint(k) gives back what find_first_of and find_last_of return. The character functions (count_chars, get_char_pos, get_char_substring, replace_chars, insert_chars) agree in the same way when neither the text found nor what follows it starts with a combining mark. The same holds for any valid piece between valid texts, by whatever function it was found.", "quantifier": "all valid texts, non-empty valid patterns, sets of code points, replacements and inserted texts (also invalid ones)", "why_tests_cant": "joins byte offsets and code point indices over all texts and patterns; width-dependent errors show only for particular mixtures of code points", "anchors": ["src/Ystring/Algorithms.cpp: find_first, find_last, find_first_of, find_last_of, get_codepoint, get_codepoint_pos, get_codepoint_substring, replace_codepoints, insert_codepoints, replace", "include/Ystring/Algorithms.hpp: find_first, get_codepoint_pos, count_codepoints"]}
{"id": "C148", "title": "Tables of texts", "statement": "A table stored as text by joining the cells of every row with one separator and the rows with another is read back by split (rows first, then cells) exactly if the rows, and the cells of each row, can be told apart at their separators; with two different bytes as separators: exactly if there is a row, no row is empty and no cell contains a separator. Cells with any contents are read back when stored with escape_json, separated by two different control characters, and read with unescape, and different tables are then stored differently. Lists of keys and values are read back when each line is split once: values may contain the character between key and value.", "quantifier": "all tables (also with rows of different lengths and empty cells), separators, keys and values", "why_tests_cant": "an equivalence over all tables and separators; interactions across joins of cells and rows are rare", "anchors": ["src/Ystring/Algorithms.cpp: split, join", "src/Ystring/Escape.cpp: escape_json, unescape", "include/Ystring/Algorithms.hpp: split, join", "include/Ystring/Escape.hpp: escape_json, unescape"]}
{"id": "C149", "title": "Positions and indices correspond one to one", "statement": "In valid text, get_codepoint_pos and get_char_pos are strictly increasing from the indices 0..count to the byte offsets 0..size, and counting the code points (characters) in front of a position gives the index back. Every offset with valid text in front of it is the position of a code point index. The positions of characters are among those of code points: exactly the start, the end and those of code points that are no combining marks; the index of a character is never greater than that of the code point. Every byte offset lies in exactly one code point (get_codepoint) and one character (get_char_range).", "quantifier": "all valid texts, indices and byte offsets", "why_tests_cant": "a correspondence between three kinds of positions over all texts", "anchors": ["src/Ystring/Algorithms.cpp: get_codepoint_pos, get_char_pos, get_codepoint, get_char_range, count_codepoints, count_chars", "include/Ystring/Algorithms.hpp: get_codepoint_pos, get_char_pos"]}
{"id": "C150", "title": "Lines and columns", "statement": "Splitting at one byte (as a line feed), every byte offset of a text has one line and column: the text in front of it splits into the lines before and the beginning x of its line, the text behind it into the rest y of the line and the lines after; the whole splits into the lines before, x + y, and the lines after. The size of the lines before and x, joined, is the offset, and every place in a line is found this way. The line begins where find_last of the byte from the offset ends, and ends where find_first from the offset begins; when nothing is found these are the ends of the text. In valid text and for an ASCII byte the column can be counted in code points: count_codepoints(x) is the index in the line of the place, for get_codepoint_pos and get_codepoint_substring.", "quantifier": "all strings (also malformed), offsets and separator bytes; valid texts for columns in code points", "why_tests_cant": "a correspondence between offsets and pairs of line and column for all texts; the rare cases are empty lines, the ends of the text and offsets next to separators", "anchors": ["src/Ystring/Algorithms.cpp: split, join, find_first, find_last, count_codepoints, get_codepoint_pos, get_codepoint_substring", "include/Ystring/Algorithms.hpp: split, find_last"]}
