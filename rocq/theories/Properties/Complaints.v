(** What exceptions about malformed text say: C126. *)
From Coq Require Import String.
From Verif Require Import Base Model.Decode Model.Encode Model.Subrange Model.Search Model.CharClass Model.Chars Model.ConvertCase
  Model.CodepointSet Model.Split Model.CaseInsensitive Model.Normalize Model.Messages Model.MessagesMore.
From Verif Require Import Spec.Utf8Spec Spec.Strings Spec.Print Spec.Messages Spec.Complaints Proofs.MessageLemmas Proofs.MalformedMessages.

Local Notation "'#' s" := (list_byte_of_string s%string) (at level 5, only parsing).

(** C126.  [tells P m o]: the function with messages, [m], has the outcome [o] of
    the function without, and where that is a YstringException its message
    satisfies [P]; [invalid_utf8]: the message is the file, a line number and
    that the UTF-8 string is invalid. *)
Theorem C126_decoding : forall file s k,
  let says {A} := @tells A (invalid_utf8 (file DecodeUtf8_hpp)) in
  says (pop_utf8_codepoint_m file s) (pop_utf8_codepoint s) /\
  says (pop_last_utf8_codepoint_m file s) (pop_last_utf8_codepoint s) /\
  says (to_utf32_m file s) (to_utf32 s) /\
  says (get_codepoint_m file s k) (get_codepoint s k).
Proof. exact p_c126_decoding. Qed.
Print Assumptions C126_decoding.
Theorem C126_searching : forall file s c pred chars set after o,
  let says {A} := @tells A (invalid_utf8 (file DecodeUtf8_hpp)) in
  says (contains_m file s c) (contains s c) /\
  says (find_first_where_m file s pred o) (find_first_where s pred o) /\
  says (find_last_where_m file s pred o) (find_last_where s pred o) /\
  says (find_first_of_m file s chars o) (find_first_of s chars o) /\
  says (find_last_of_m file s chars o) (find_last_of s chars o) /\
  says (find_first_of_set_m file s set o) (find_first_of_set s set o) /\
  says (find_last_of_set_m file s set o) (find_last_of_set s set o) /\
  says (find_first_newline_m file after s o) (find_first_newline after s o) /\
  says (find_last_newline_m file after s o) (find_last_newline after s o).
Proof. exact p_c126_searching. Qed.
Print Assumptions C126_searching.
Theorem C126_trimming : forall file s pred chars after,
  let says {A} := @tells A (invalid_utf8 (file DecodeUtf8_hpp)) in
  says (trim_where_m file s pred) (trim_where s pred) /\
  says (trim_start_where_m file s pred) (trim_start_where s pred) /\
  says (trim_end_where_m file s pred) (trim_end_where s pred) /\
  says (trim_m file s chars) (trim s chars) /\
  says (trim_start_m file s chars) (trim_start s chars) /\
  says (trim_end_m file s chars) (trim_end s chars) /\
  says (trim_default_m file after s) (trim_default after s) /\
  says (trim_start_default_m file after s) (trim_start_default after s) /\
  says (trim_end_default_m file after s) (trim_end_default after s).
Proof. exact p_c126_trimming. Qed.
Print Assumptions C126_trimming.
Theorem C126_splitting : forall file s chars sep after n ign,
  let says {A} := @tells A (invalid_utf8 (file DecodeUtf8_hpp)) in
  says (split_chars_m file s chars n ign) (split_chars s chars n ign) /\
  says (split_lines_m file after s n ign) (split_lines after s n ign) /\
  says (ci_split_chars_m file s chars n ign) (ci_split_chars s chars n ign) /\
  says (ci_split_sep_m file s sep n ign) (ci_split_sep s sep n ign).
Proof. exact p_c126_splitting. Qed.
Print Assumptions C126_splitting.
Theorem C126_characters : forall file s o i j t,
  let says {A} := @tells A (invalid_utf8 (file DecodeUtf8_hpp)) in
  says (get_next_char_range_m file s o) (get_next_char_range s o) /\
  says (get_prev_char_range_m file s o) (get_prev_char_range s o) /\
  says (count_chars_m file s) (count_chars s) /\
  says (get_char_pos_m file s i) (get_char_pos s i) /\
  says (get_char_range_m file s i) (get_char_range s i) /\
  says (get_char_substring_m file s i j) (get_char_substring s i j) /\
  says (replace_chars_m file s i j t) (replace_chars s i j t) /\
  says (reverse_m file s) (reverse s).
Proof. exact p_c126_characters. Qed.
Print Assumptions C126_characters.
Theorem C126_case_insensitive : forall file s t u chars set o m,
  let says {A} := @tells A (invalid_utf8 (file DecodeUtf8_hpp)) in
  says (ci_compare_m file s t) (ci_compare s t) /\
  says (ci_equal_m file s t) (ci_equal s t) /\
  says (ci_less_m file s t) (ci_less s t) /\
  says (ci_starts_with_m file s t) (ci_starts_with s t) /\
  says (ci_ends_with_m file s t) (ci_ends_with s t) /\
  says (ci_find_first_m file s t o) (ci_find_first s t o) /\
  says (ci_find_last_m file s t o) (ci_find_last s t o) /\
  says (ci_find_first_of_m file s chars o) (ci_find_first_of s chars o) /\
  says (ci_find_last_of_m file s chars o) (ci_find_last_of s chars o) /\
  says (ci_find_first_of_set_m file s set o) (ci_find_first_of_set s set o) /\
  says (ci_find_last_of_set_m file s set o) (ci_find_last_of_set s set o) /\
  says (ci_replace_m file s t u m) (ci_replace s t u m).
Proof. exact p_c126_case_insensitive. Qed.
Print Assumptions C126_case_insensitive.
Theorem C126_normalizing : forall file fuel adjacent s,
  let says {A} := @tells A (invalid_utf8 (file DecodeUtf8_hpp)) in
  says (to_decomposed_m file fuel s) (to_decomposed fuel s) /\
  says (to_composed_m file adjacent s) (to_composed adjacent s).
Proof. exact p_c126_normalizing. Qed.
Print Assumptions C126_normalizing.
(** The theorems speak of exceptions that are thrown: *)
Example C126_ex : let file := fun _ => #"DecodeUtf8.hpp" in
  contains_m file [x61; xff] 0x62 = MWhat #"DecodeUtf8.hpp:189: Invalid UTF-8 string." /\
  contains_m file [x61; xff] 0x61 = MOk true /\
  find_last_of_m file [x61; xff; x62] [0x61] npos = MWhat #"DecodeUtf8.hpp:200: Invalid UTF-8 string." /\
  trim_default_m file [0] [x20; xff] = MWhat #"DecodeUtf8.hpp:189: Invalid UTF-8 string." /\
  split_lines_m file [0] [x61; x0a; xe2; x82] SIZE_MAX false = MWhat #"DecodeUtf8.hpp:189: Invalid UTF-8 string." /\
  reverse_m file [xff; x61] = MWhat #"DecodeUtf8.hpp:200: Invalid UTF-8 string." /\
  ci_find_first_m file [x61; x62; x63] [x42; xc0] 0 = MWhat #"DecodeUtf8.hpp:189: Invalid UTF-8 string." /\
  to_composed_m file false [x61; xff] = MWhat #"DecodeUtf8.hpp:189: Invalid UTF-8 string.".
Proof. repeat split; vm_compute; reflexivity. Qed.

(** Case conversion: the first thing that can not be converted is named, malformed
    bytes or a code point above U+10FFFF. *)
Theorem C126_case : forall file s,
  erase (to_lower_str_m file s) = to_lower_str s /\ erase (to_upper_str_m file s) = to_upper_str s /\ erase (to_title_str_m file s) = to_title_str s.
Proof. exact p_c126_case_same. Qed.
Print Assumptions C126_case.
Theorem C126_case_malformed : forall file u us r, Text u us -> Forall (fun c => c <= 0x10FFFF) us -> Malformed r ->
  exists a b c, to_lower_str_m file (u ++ r) = MWhat a /\ to_upper_str_m file (u ++ r) = MWhat b /\ to_title_str_m file (u ++ r) = MWhat c /\
    invalid_utf8 (file DecodeUtf8_hpp) a /\ invalid_utf8 (file DecodeUtf8_hpp) b /\ invalid_utf8 (file DecodeUtf8_hpp) c.
Proof. exact p_c126_case_malformed. Qed.
Print Assumptions C126_case_malformed.
Theorem C126_case_large : forall file u us g c w, Text u us -> Forall (fun c => c <= 0x10FFFF) us -> uchar g c -> 0x10FFFF < c ->
  exists msg ds, Decimal ds c /\ Located (file Algorithms_cpp) msg (#"Invalid code point: " ++ ds) /\
    to_lower_str_m file (u ++ g ++ w) = MWhat msg /\ to_upper_str_m file (u ++ g ++ w) = MWhat msg /\ to_title_str_m file (u ++ g ++ w) = MWhat msg.
Proof. exact p_c126_case_large. Qed.
Print Assumptions C126_case_large.
Example C126_case_ex : let file := fun _ => #"F" in
  to_upper_str_m file [x61; xff; xf4; x90; x80; x80] = MWhat #"F:189: Invalid UTF-8 string." /\
  to_upper_str_m file [x61; xf4; x90; x80; x80; xff] = MWhat #"F:35: Invalid code point: 1114112".
Proof. split; vm_compute; reflexivity. Qed.

(** insert_char and insert_chars: the position is looked for first, then the
    code point is encoded. *)
Theorem C126_insert : forall file s k c t,
  erase (insert_char_m file s k c) = insert_char s k c /\ erase (insert_chars_m file s k t) = insert_chars s k t /\
  (get_char_pos s k = Throw YstringException ->
     exists msg, insert_char_m file s k c = MWhat msg /\ insert_chars_m file s k t = MWhat msg /\ invalid_utf8 (file DecodeUtf8_hpp) msg) /\
  (get_char_pos s k = Ok npos ->
     (exists msg, insert_char_m file s k c = MWhat msg /\ Located (file AlgorithmUtilities_cpp) msg #"string position is out of bounds") /\
     (t <> [] -> exists msg, insert_chars_m file s k t = MWhat msg /\ Located (file AlgorithmUtilities_cpp) msg #"string position is out of bounds")) /\
  (forall o, get_char_pos s k = Ok o -> o <> npos -> 0x10FFFF < c ->
     exists msg ds, insert_char_m file s k c = MWhat msg /\ Decimal ds c /\ Located (file Algorithms_cpp) msg (#"Invalid code point: " ++ ds)).
Proof. exact p_c126_insert. Qed.
Print Assumptions C126_insert.
Example C126_insert_ex : let file := fun _ => #"F" in
  insert_char_m file [x61; xff] 1 0x110000 = MWhat #"F:189: Invalid UTF-8 string." /\
  insert_char_m file [x61; x62] 3 0x110000 = MWhat #"F:127: string position is out of bounds" /\
  insert_char_m file [x61; x62] 2 0x110000 = MWhat #"F:35: Invalid code point: 1114112" /\
  insert_chars_m file [x61; x62] (-3) [x63] = MWhat #"F:116: string position is out of bounds".
Proof. repeat split; vm_compute; reflexivity. Qed.
