# Formal model of jebreimo/Ystring2 in Rocq (Coq 8.16.1)

## 1. Layout

    rocq/theories/Base.v            outcomes (Ok / Throw / UB / OutOfFuel), bytes, C++ integer widths, substr, std:: algorithms
    rocq/theories/Tables/*.v        generated verbatim from src/Ystring/*Tables.hpp and data/unicode by tools/gen_tables.py
    rocq/theories/Model/*.v         the code, function by function (no proofs)
    rocq/theories/Spec/*.v          small independent specifications (list below)
    rocq/theories/Proofs/*.v        lemmas
    rocq/theories/Properties/*.v    property theorems only, `Print Assumptions` under each, an `Example` meeting the hypotheses
    rocq/theories/Tests/*.v         the repository's own unit tests, evaluated on the model (generated by tools/gen_repo_tests.py)
    tools/gen_tables.py, gen_headers.py   extract the C++ tables and the UnicodeData columns, and the text of the headers
    tools/gen_coqproject.sh         regenerates rocq/_CoqProject; tools/gen_manifest.py + tools/notes.json: MANIFEST.json
    seeded/LOG.jsonl                wrong programs tried against the theorems

Model file -> source: Decode (DecodeUtf8.hpp), Encode (EncodeUtf8.hpp, Utf32.cpp), Subrange, Search / Chars / Split
(Algorithms.cpp, AlgorithmUtilities.*, TokenIterator.hpp), CharClass (CharClass.cpp, CodepointPredicates.hpp), ConvertCase,
CodepointSet (Char32Set.cpp), CaseInsensitive (CaseInsensitive parts of Algorithms.cpp), Escape, Unescape, Normalize, GenClass /
GenCase / GenNorm (the three scripts in tools/unicode_character_tables that make the tables) / Callbacks (predicates and finders
with state and exceptions) / References (the caller's variables, also after an exception) / Views (string_view as a place in an array) /
Messages (what exceptions say) / PyText, Codegen, GenFiles (the scripts from text to text: Python string functions, codegen.py, reading and writing) / Expanders (codegen.py over any expander) /
LineBuilder (codegen.py's wrapping and naming functions) / MessagesMore (what every decoding function says) / Memory (allocation that fails) / Stream (operator<<).

Specification files: Sequences (operations on lists of code points), Utf8Spec (sequences, texts, malformed bytes, RFC 3629), Strings (occurrences, slices of byte strings),
Boundaries (segmentation of arbitrary bytes), Newline, Category (separator classes), Replace, Slices (index resolution), Split,
Tokens, UnicodeData / Case / CaseFold (data from UnicodeData.txt), CpSet, Escape (escape grammar), Iterate, Normalization, WellFormed,
Safety, Algebra, Print, Visits, Offsets, Counts, TableRows (what the lines of a Unicode data file say), Calls (what a callback was asked),
Views (places in an array), Messages (what is said about a bad escape sequence), Commute (conversions that
respect separators and marks), Embed, Template (what filling in a template means), DataFile (the text of a Unicode data file), CppText
(the text of the headers and how C++ reads arrays), Blocks (templates as trees), Expanders (what an expander is asked), Wrap, NormalForms (form D over
UnicodeData), Chunks (text that arrives in pieces), LineEnds (lines that are visited and put together again).

## 2. Modelling decisions

* A string (`std::string`, `std::string_view` contents) is a `list byte` (`Coq.Init.Byte.byte`, exactly 256 values),
  so no well-formedness hypothesis on bytes is ever needed.
* Iterators into `[begin,end)` are `nat` positions. Dereferencing at or past the end yields the outcome `UB`.
  `str.begin() + offset` with `offset > size` yields `UB`.
* `size_t` is `N` with explicit `mod 2^64` where the code adds or subtracts; `char32_t`/`uint32_t` is `N` with explicit
  `mod 2^32`; `ptrdiff_t` is `Z`, and signed overflow (`std::abs(PTRDIFF_MIN)`, `-PTRDIFF_MIN`) yields `UB`.
* Shifting a 32-bit value by 32 or more yields `UB`. Reading an uninitialised variable yields `UB`.
* `throw YstringException` is `Throw YstringException`; `string_view::substr` past the end is `Throw StdOutOfRange`.
  Exception messages are modelled in Model/Messages.v and Model/MessagesMore.v (C113, C126), apart from callbacks that throw.
* Loops are structural recursion or recursion on fuel. Running out of fuel is the separate outcome `OutOfFuel`; theorems
  either show an `Ok`/`Throw` result (hence termination) or, for the two loops that may not terminate, quantify over all fuel.
* Template parameters (predicates, token finders) are Gallina functions; in Model/Callbacks.v they are functions with a state that may throw,
  and C109_pure says that the two models agree.
* A `const char32_t[]` passed as `std::u32string_view` is converted by the `const char32_t*` constructor (C++20), which scans
  for a zero. The model takes the memory following the array as a parameter.
* std algorithms (`search`, `mismatch`, `find`, `find_if`, `any_of`, `lower_bound`, `reverse`, `copy`, `from_chars`) are modelled by
  the result the C++ standard prescribes; their preconditions (e.g. sortedness for `lower_bound`) are proved for the tables used.
* Allocation failure is modelled where an object of the caller grows (Model/Memory.v, C120), otherwise not.
* Windows/DLL macros, the version header, and `misc/` (declarations only, not part of the build) are not modelled. Stream output (`operator<<`) is modelled for a stream in its default state in Model/Print.v and in any state (classic locale, no exceptions) in Model/Stream.v.

## 3. Specification layer

`uchar g c`: the byte list `g` is one generalised UTF-8 sequence (1-4 bytes, lead byte + right number of continuation
bytes, no shortest-form requirement) with value `c`, written with `*`, `+`, `-` and ranges, not with the code's masks and shifts.
`Text s cs`: `s` is a concatenation of such sequences with values `cs`. `Malformed r`: `r` is non-empty and starts with no such
sequence. RFC 3629 validity is a separate, stricter predicate. Unicode data (category ranges, simple case mappings, canonical
pairs) is extracted from `data/unicode/UnicodeData16.0.0.txt`.

## 4. Properties: what is modelled and how it is proved

| ids | model | proof method |
|---|---|---|
| C01-C07 | decode_next, decode_prev, encode_utf8, to/from_utf32, is_valid_utf8 | bit lemmas + induction over the segmentation; C05, C07 expected false: refutation + exact partial theorem |
| C08, C09, C11, C24, C25 | skip_next/skip_prev and their clients | induction over an explicit segmentation of arbitrary bytes |
| C10, C12, C13 | append, contains, starts/ends_with | direct |
| C14, C15, C31, C32, C36, C39, C40, C42 | byte searches, replace, split, TokenIterator, join | leftmost/rightmost occurrence specs, induction on remaining length |
| C16-C20, C37, C38, C41 | code point searches, newline, trim | induction over decoded text; C20 expected false |
| C21-C23, C27, C29, C35 | character ranges | segmentation into base + marks, from both ends |
| C26, C27, C30 | substring ranges | slice spec; several sign combinations expected false |
| C28, C29, C33 | insert, replace_codepoint | corollaries |
| C34 | replace_invalid_utf8 | invariant |
| C43-C45, C55, C56 | table look-ups | sequential sweep of finite tables by `vm_compute`, lifted to all 2^32 values |
| C46-C52 | case-insensitive algorithms | over an arbitrary code point key function, instantiated with to_upper |
| C53, C54 | CodepointSet | induction over operation histories; corner cases expected false |
| C57-C65 | escape/unescape | in-place buffer model, grammar specs, induction |
| C66-C71, C76, C77 | normalisation | table sweeps, loop invariants; several expected false |
| C78 | searches against code point boundaries | self-synchronisation: a pattern that starts with a lead byte can only occur at a boundary |
| C79 | validity preservation of every function | the exact specifications of the other properties, over an abstract validity closed under cutting and joining; crossed index ranges and unescape (RFC) expected false |
| C80-C82 | every function on arbitrary bytes | one Hoare-style predicate (`runs`) for 'ends, defined unless U, result satisfies Q', carried through every loop by induction on what is left of the text; backwards expected false |
| C83-C85 | how split, join, replace and trim fit together | the relational specifications of split, replace and trim (C31-C37) composed; `separable` (Spec/Algebra.v) is the exact condition |
| C86 | conversions distribute over concatenation | from the exact characterisations of each conversion on valid and on malformed text, one lemma for all of them |
| C87 | case conversion and case-insensitive equality | every row of the two case tables compared inside Coq, then induction over the text; expected false for a few code points, which are listed exactly |
| C88 | stream output of Subrange and CodepointSet | Model/Print.v models the decimal conversion; injectivity by cutting the output at the first non-digit, and for sets by parsing the shown code points; sets expected false for unescaped '-' and '^' |
| C89 | sorted tables, bisection | sortedness of all nine tables computed inside Coq; loop invariant for the halving loop of std::lower_bound (Model/LowerBound.v) for any sorted table |
| C90 | a maximum of 0 in replace and split | direct computation on the model; expected false (0 means none) |
| C91 | extreme offsets, indices and counts | the models make iterators outside the text and signed overflow undefined (`UB`); 'exactly when' from C80; expected false |
| C92 | Subrange | arithmetic on sizes below 2^63 |
| C93 | class constants | case analysis over the thirty categories, then C55 |
| C94 | comparison of code points | C43 and arithmetic modulo 2^32 |
| C95 | pairs of functions that answer the same question | specification lemmas of both, compared; code point / string versions through self-synchronisation (C78) |
| C96 | a search called again and again (`Visits`, Spec/Visits.v) | induction over the cuts of C37-C39, C52, from the front and from the back |
| C97 | the case-insensitive functions on two strings that are equal but for case | both strings are read only through the upper case of their code points: induction over pairs of equal lists, then the search loops step by step |
| C98 | a search and its case-insensitive version on the same text | an exact match is a match of equal code points; the searches return the first or last such place |
| C99 | sizes of results against sizes of arguments | the specifications of C02, C34, C35, C44, C45, C57, C62, C67, C68; tables by computation, then induction over the text |
| C100 | `to_composed` of a result of `to_composed` | neighbours in `kept` never compose: invariant over the reading of C68, second elements have no decomposition (table) |
| C101 | the case_insensitive functions with a pattern that is not valid UTF-8 | first malformed sequence of the pattern; induction over the text as far as it decodes, both directions; replace and split from the never-found lemmas |
| C102 | the offset argument of every search, forwards and backwards | decoding reads only on one side of the offset (simulation of each loop on `pre ++ t` by the loop on `t`; `moved`, Spec/Offsets.v) |
| C103 | insertion, replacement and slices by index, one after another | the slices of C26-C30 on the unit list `l1 ++ qs ++ l2` before and after the edit |
| C104 | `count_chars`, `count_codepoints` before and after concatenation, case conversion, `replace_codepoint`, `reverse` | the unit lists of the other properties; marks of the library = categories of the data; the case table never changes whether a code point is a mark, except U+0345 (a check over the table) |
| C105 | make_char_class_file.py on any list of lines; `get_char_class` with the arrays as parameters | invariant of the range loop (ranges cover 0..last, class of every code point below), each optimiser keeps the class of every code point, arithmetic of the encoding, look-up by induction over the ranges; header equality by computation |
| C106 | make_case_convert_file.py on any list of lines; `convert` with the arrays as parameters | grouping invariant of the dict, bit sets of one segment, sortedness of the two outputs, look-up; header equality by computation |
| C107, C108 | make_normalization_file.py on any list of rules; `find_decomposed`, `find_composed` with the arrays as parameters | packing arithmetic, insertion sort, look-up; C108 expected false for first elements from U+1000: exact theorem + refutation; header equality by computation |
| C109, C110 | find_first_where, find_last_where, trim_*_where, split_where, TokenIterator::next once more, in a state monad: callbacks with state, effects and exceptions (Model/Callbacks.v) | relation 'asked about these code points, answered b each time' / 'called with these remainders', induction over it; agreement with the pure model by induction on fuel; C110 expected false after the first token: exact behaviour + examples |
| C111 | the functions with reference parameters as functions from the variables' old values to a result and new values, also when they throw (Model/References.v) | cases of the decoder; for unescape(char*) the loop invariant 'the buffer holds the text read so far, then its old bytes'; expected false for ch and the buffer: exact behaviour |
| C112 | trim*, substrings, split*, TokenIterator on views that are places in an array (Model/Views.v) | agreement of contents with the model on strings; places from the specifications of C19, C26, C27, C36-C40; expected false for null views |
| C113 | the throwing functions of Unescape.cpp, append, insert_codepoint(s), replace_codepoint, pop_utf8_codepoint with the text of the exception (Model/Messages.v), for every spelling of `__FILE__` | the model without messages is the erasure of this one; induction over the in-place loop as for C61; cases of the escape grammar; expected false after half a surrogate pair |
| C114 | to_lower / to_upper / to_title with split, split_lines, trim*, join, reverse, substrings | the conversion is a map over code points (C45), the other functions are characterised on code points or characters (C37–C40, C26–C28); what the case tables do to separators and marks is computed over the tables |
| C115 | to_decomposed with the same functions, count_chars | to_decomposed is a map to full decompositions (C67), which are computed over the pair table; which ASCII characters occur in it and the marks in each pair are computed over the table |
| C116 | to_decomposed with to_lower / to_upper / case-insensitive equality | both are maps over code points (C45, C67); that they can be swapped on one code point is computed over the case and pair tables |
| C117 | unescape and unescape_next of concatenations | the reading relation of C61 composes when the last escape sequence is closed; escape_json writes only closed ones |
| C118 | codegen.py: tokenizer and template processor | an inductive relation says what becomes of the lines; the tokens of plain lines are computed, then induction over the lines with the column counter |
| C119 | the three scripts from the text of the data file to the text of the header (PyText, Codegen, GenFiles); Tables/HeaderTexts.v has the shipped headers as text | relations for data lines and for C++ initialiser lists (Spec/DataFile.v, Spec/CppText.v); reading, formatting and C118's expansion are composed with C105-C108; the shipped headers by computation |
| C120 | append, replace_invalid_utf8(std::string&) and the add functions as sequences of operations that can need memory, with an arbitrary oracle for which of them fail (Memory) | induction over the bytes / code points; exact result for every oracle |
| C121 | the substring and position functions (Chars, Search) | list lemmas about firstn/skipn on the units of C24/C26/C27 |
| C122 | codegen.py's blocks, SET and alignment markers (Model/Codegen); Spec/Blocks has the templates as trees and the lines they select | simulation: the tokens of a tree run in any scope as the selected lines run in the outermost one, by mutual induction over trees and branches; nesting by an invariant on the depth of scopes |
| C123 | codegen.py's LineBuilder and join (Model/LineBuilder) | invariant: closed lines and the current one as a list of groups of strings, preserved by append (the recursive call is unfolded once) |
| C124 | codegen.py's name functions (Model/LineBuilder) | induction over the text; the parts are an inductive relation in Spec/Wrap, shown functional |
| C125 | every function whose model can throw, on valid text | valid text as a list of encoded code points; each decoding step succeeds, then induction per function (Proofs/NoThrowLemmas) |
| C126 | every function that decodes, with the text of the exception in its outcome (Model/MessagesMore.v) | a relation between the outcome with and the one without messages, kept by every sequencing step and loop (Proofs/MalformedMessages) |
| C127 | to_decomposed against an independent specification of form D over UnicodeData (Spec/NormalForms.v, Tables/CanonicalTables.v) | full decomposition as a function of bounded depth (checked over the tables), canonical ordering is an insertion sort and unique because swapping keeps, for each class, the sequence of the marks of that class and the starters (Proofs/NormalFormLemmas); the library only expands pairs (Proofs/NormalFormProps) |
| C128 | to_decomposed and to_composed against canonical equivalence | composing a pair keeps the full decomposition; a lost character makes it shorter (Proofs/NormalFormProps) |
| C129 | codegen.py's processor over any expander (Model/Expanders.v) | expanders related by a simulation give the same text; the calls by induction over lines and markers (Proofs/ExpanderLemmas) |
| C130 | from_utf32, to_utf32, ci compare, to_upper | the first differing byte of two RFC 3629 encodings decides as the code points do; induction over the sequences (Proofs/SequenceLemmas) |
| C131 | replace, split, join, trim_where | C31, C32, C36, C41 transported along from_utf32: an encoded pattern occurs only at code point boundaries (C78) |
| C132 | starts_with, ends_with, contains, find_first, find_last, the functions by code point index and by character index, reverse, to_lower, to_upper | C13 to C15, C24 to C30, C35 and C44 transported along from_utf32; a list of code points is a list of one-code-point texts (Proofs/IndexSequenceLemmas) |
| C133 | the two operator<< on a record of the stream's state (Model/Stream) | writing piece by piece is writing the concatenation (also when the buffer fills up); digits by induction as in C88 |
| C134 | a user's loop around pop_utf8_codepoint as a relation (Spec/Chunks) | the loop finds the longest text at the beginning, which is unique; induction over the pieces |
| C135 | escape_json, join, split, unescape composed | no control character is in the output of escape_json (C57), so an early occurrence of the separator would have its first control character too early; C83, C58 |
| C136 | the split functions, trim | the cuts of C37-C39 and C52 compose; induction over the cuts |
| C137 | the conversions and predicates of the model, with the shipped tables | each fact is checked for every row of UnicodeData's mappings by computation and lifted with C43; strings by C44 |
| C138 | split_lines, join, find_first_newline | joined lines are cut at the joints (no CR LF forms across one), so C38 and C83 apply; the ranges visited are the cuts |
| C139 | the case-insensitive replace, split and equal, join | the cuts of C52 give the replacement relation of C51; a piece and another spelling of it fold to the same code points, so the cuts carry over to the joined text and to texts equal but for case |
| C140 | to_upper, to_lower and to_title on code points and strings, two in a row | the rows of the Unicode data decide the code points; strings are converted code point by code point with one flag, the result of two conversions is never shorter than that of the last, so equal results are equal place by place |
| C141 | split at code points with ignore_empty, trim, join | an inductive relation for the words of a text; the cuts of C37 follow it, and it is closed under gaps before, behind and between |
| C142 | both replace functions, twice | texts as pieces glued with the pattern or the replacement; what C31-C33 prove of both calls leads between the two |
| C143 | escape_json, find_first_escapable_char, find_first_escaped_char | readers of quoted text as inductive relations; induction over JSON string bodies |
| C144 | reverse with starts_with, ends_with, find_first, find_last, find_first_of, find_last_of, replace, trim, split, join | mirror images as an inductive relation; a match inside a valid text cuts it between code points, so matches are mirrored |
| C145 | replace_codepoints, replace_chars, count_codepoints, count_chars, called for lists of edits | batches as an inductive relation on lists of units; one induction over the batch for each of three orders of the calls |
| C146 | replace, replace_codepoint | a replacement is a barrier no match crosses; induction over the replacement relations of C31 and C32; lists of code points for the independent ones |
| C147 | find_*, get_codepoint*, replace_codepoints, insert_codepoints, replace | a match of valid text in valid text lies on code point boundaries (C29's lemma), so the text is three lists of code points; both edits rebuild them |
| C148 | join, split, escape_json, unescape | C83 (join and split) at both levels; a line contains no row separator because no cell does; escaped cells contain no control character (C57) |
| C149 | get_codepoint*, get_char_pos, get_char_range, count_* | offsets into a list of non-empty pieces are strictly increasing and bracket every byte; characters are made of code points (Chars_app, uniqueness of the division) |
| C150 | split, join, find_first, find_last, count_codepoints | both halves and the whole are joins of parts without the byte (C83), so the division is unique; the nearest separators on both sides bound the line |
| C72 | case-insensitive find_first/last | as C46-C52 |
| C73 | find_first_of/find_last_of with a CodepointSet | generic find_first_where lemma, membership from C53/C54 |
| C74, C75 | find_first_escaped_char, unescape_next | grammar specs, case analysis + induction over backslash-newline pairs |

Where the faithful model violates a property the theorem is named `..._refuted`, and the strongest true part is proved
beside it with the suffix `_partial`.

## 5. Parameters that stand for what the C++ program leaves open

* `after` (Search, Split): the memory behind the arrays NEWLINES / WHITESPACE, which the code hands to a `u32string_view` through a
  pointer. The theorems that need a terminating zero say so; C18_any_memory, C19_any_memory, C20 and C38_any_memory are exact for every `after`.
* `adjacent` (Normalize): whether the linker placed TO_COMPOSED directly behind TO_DECOMPOSED (the code compares with the wrong
  table's end). The theorems hold for both values unless stated.
* `inner` (Normalize): a bound on the rounds of one `while` loop. "Never returns" is `OutOfFuel` for every `inner`.

## 6. Checking the model against the project's own tests

Tests/RepoTests.v has all the assertions of tests/YstringTest/test_*.cpp (404 of them, some covering two or three REQUIREs of one call)
as `Example`s computed on the model. They are tests of the transcription, not proofs, and no theorem rests on them. All hold but one:
test_DecodeUtf8.cpp:167 decodes backwards over seven continuation bytes, which shifts a 32-bit value by 36 bits (C05), so the model
says `UB` where the authors expect INVALID_CHAR; the example states `UB`. In test_Unescape.cpp:27 the range found by
find_first_escaped_char reaches one byte beyond the text (C74), which the test does not see because `substr` cuts it off.

## 7. Trusted base

* Coq 8.16.1's kernel, including its `vm_compute` machine. No `native_compute`, no kernel check switched off, no plugins.
* Axioms: every theorem in Properties/*.v prints "Closed under the global context". (A whole-library `coqchk` also lists the
  `Under_rel` axioms of Coq.ssr.ssrunder, a standard library file loaded by `lia`'s ZifyBool; no theorem depends on them.)
* The reading of the C++ source recorded in the comments of Model/*.v, and the C++20 library semantics listed in section 2.
* tools/gen_tables.py: that Tables/*.v are the arrays of src/Ystring/*Tables.hpp and the columns of UnicodeData.txt
  (UnicodeRows: its lines, runs of consecutive lines with one category written once).
* Not modelled: allocation failure except in append, replace_invalid_utf8(std::string&) and the add functions (C120), `std::length_error`, exception messages other than those of C113 and C126, the Windows/DLL
  macros, `YstringVersion`, misc/; of the scripts in
  tools/unicode_character_tables: command line handling and the current date. Python's strings are modelled as bytes; `strip` and `split` know ASCII white space only.
* tools/gen_headers.py: that Tables/HeaderTexts.v is the text of the five generated headers in src/Ystring.
