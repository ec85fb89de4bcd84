(** C125: which texts are accepted. *)
From Verif Require Import Base Spec.Utf8Spec Spec.Strings Spec.WellFormed Spec.Safety Spec.Success
  Model.Decode Model.Encode Model.Subrange Model.Search Model.Split Model.ConvertCase Model.CodepointSet Model.Chars Model.CaseInsensitive Model.Escape Model.Normalize
  Proofs.NoThrowLemmas.

(** C125.  [succeeds]: the call returns a value.  Valid means that is_valid_utf8
    says so; every other argument is arbitrary unless something is said about it. *)
Theorem C125_scan : forall s c, is_valid_utf8 s = Ok true -> Fits s ->
  succeeds (contains s c) /\ succeeds (count_codepoints s) /\ succeeds (to_utf32 s) /\
  succeeds (count_chars s) /\ succeeds (reverse s).
Proof. exact p_c125_scan. Qed.
Print Assumptions C125_scan.
Theorem C125_view : forall s, is_valid_utf8 s = Ok true ->
  succeeds (pop_utf8_codepoint s) /\ succeeds (pop_last_utf8_codepoint s) /\ succeeds (remove_utf8_codepoint s) /\ succeeds (remove_last_utf8_codepoint s).
Proof. exact p_c125_view. Qed.
Print Assumptions C125_view.
(** Searches for code points, from every offset between two code points
    (find_first_of, find_last_of and the versions for sets are these with the
    predicate 'is one of'), and backwards also from beyond the end. *)
Theorem C125_where : forall (f : N -> bool) pre post, is_valid_utf8 pre = Ok true -> is_valid_utf8 post = Ok true ->
  succeeds (find_first_where (pre ++ post) f (size pre)) /\ succeeds (find_last_where (pre ++ post) f (size pre)) /\
  (forall o, size (pre ++ post) <= o -> succeeds (find_last_where (pre ++ post) f o)).
Proof. exact p_c125_where. Qed.
Print Assumptions C125_where.
(** [after] is the memory behind the library's array of newlines (C20). *)
Theorem C125_newlines : forall after pre post, In 0 after -> is_valid_utf8 pre = Ok true -> is_valid_utf8 post = Ok true -> Fits (pre ++ post) ->
  succeeds (find_first_newline after (pre ++ post) (size pre)) /\ succeeds (find_last_newline after (pre ++ post) (size pre)) /\
  (forall o, size (pre ++ post) <= o -> succeeds (find_last_newline after (pre ++ post) o)).
Proof. exact p_c125_newlines. Qed.
Print Assumptions C125_newlines.
Theorem C125_trim : forall (f : N -> bool) s, is_valid_utf8 s = Ok true -> Fits s ->
  succeeds (trim_where s f) /\ succeeds (trim_start_where s f) /\ succeeds (trim_end_where s f).
Proof. exact p_c125_trim. Qed.
Print Assumptions C125_trim.
(** By index; the most negative one is undefined (C91). *)
Theorem C125_codepoints : forall s i j, is_valid_utf8 s = Ok true -> Fits s -> index i -> index j ->
  succeeds (get_codepoint s i) /\ succeeds (get_codepoint_pos s i) /\ succeeds (get_codepoint_substring s i j).
Proof. exact p_c125_codepoints. Qed.
Print Assumptions C125_codepoints.
Theorem C125_chars : forall s i j t, is_valid_utf8 s = Ok true -> Fits s -> index i -> index j ->
  succeeds (get_char_pos s i) /\ succeeds (get_char_range s i) /\ succeeds (get_char_substring s i j) /\ succeeds (replace_chars s i j t).
Proof. exact p_c125_chars. Qed.
Print Assumptions C125_chars.
(** Inserting needs a place and a code point that exist, and nothing else. *)
Theorem C125_insert_codepoint : forall s k c t, is_valid_utf8 s = Ok true -> Fits s -> index k ->
  exists n, count_codepoints s = Ok n /\
    (succeeds (insert_codepoint s k c) <-> Z.abs_N k <= n /\ c <= 0x10FFFF) /\
    (succeeds (insert_codepoints s k t) <-> Z.abs_N k <= n \/ t = []).
Proof. exact p_c125_insert_codepoint. Qed.
Print Assumptions C125_insert_codepoint.
Theorem C125_insert_char : forall s k c t, is_valid_utf8 s = Ok true -> Fits s -> index k ->
  exists n, count_chars s = Ok n /\
    (succeeds (insert_char s k c) <-> Z.abs_N k <= n /\ c <= 0x10FFFF) /\
    (succeeds (insert_chars s k t) <-> Z.abs_N k <= n \/ t = []).
Proof. exact p_c125_insert_char. Qed.
Print Assumptions C125_insert_char.
(** Any separator, also one that is not valid. *)
Theorem C125_split : forall s sep chars n ign, is_valid_utf8 s = Ok true -> Fits s ->
  succeeds (split_sep s sep n ign) /\ succeeds (split_chars s chars n ign).
Proof. exact p_c125_split. Qed.
Print Assumptions C125_split.
Theorem C125_split_lines : forall after s n ign, is_valid_utf8 s = Ok true -> Fits s -> In 0 after ->
  succeeds (split_lines after s n ign).
Proof. exact p_c125_split_lines. Qed.
Print Assumptions C125_split_lines.
Theorem C125_replace : forall s from to a b m, is_valid_utf8 s = Ok true -> Fits s -> index m ->
  succeeds (replace s from to m) /\ (a <= 0x10FFFF -> b <= 0x10FFFF -> succeeds (replace_codepoint s a b m)) /\
  (is_valid_utf8 from = Ok true -> succeeds (ci_replace s from to m)).
Proof. exact p_c125_replace. Qed.
Print Assumptions C125_replace.
(** Ignoring case the pattern has to be valid too (C101). *)
Theorem C125_ignoring_case : forall s p, is_valid_utf8 s = Ok true -> is_valid_utf8 p = Ok true ->
  succeeds (ci_compare s p) /\ succeeds (ci_equal s p) /\ succeeds (ci_less s p) /\ succeeds (ci_starts_with s p) /\ succeeds (ci_ends_with s p).
Proof. exact p_c125_ci. Qed.
Print Assumptions C125_ignoring_case.
Theorem C125_ignoring_case_find : forall pre post p, is_valid_utf8 pre = Ok true -> is_valid_utf8 post = Ok true -> is_valid_utf8 p = Ok true ->
  succeeds (ci_find_first (pre ++ post) p (size pre)) /\ succeeds (ci_find_last (pre ++ post) p (size pre)).
Proof. exact p_c125_ci_find. Qed.
Print Assumptions C125_ignoring_case_find.
Theorem C125_ignoring_case_split : forall s sep chars n ign, is_valid_utf8 s = Ok true -> is_valid_utf8 sep = Ok true -> Fits s ->
  succeeds (ci_split_sep s sep n ign) /\ (Forall (fun d => d < 0x100000000) chars -> succeeds (ci_split_chars s chars n ign)).
Proof. exact p_c125_ci_split. Qed.
Print Assumptions C125_ignoring_case_split.
(** Normalisation: valid text may make it loop or be undefined (C67, C70), but
    there is no exception. *)
Theorem C125_normalize : forall inner adjacent s, is_valid_utf8 s = Ok true -> ~ throws (to_decomposed inner s) /\ ~ throws (to_composed adjacent s).
Proof. exact p_c125_normalize. Qed.
Print Assumptions C125_normalize.
(** These only look at bytes: every text is accepted, valid or not. *)
Theorem C125_bytes : forall s p o, Fits s -> o <= size s ->
  succeeds (find_first s p o) /\ (forall o, succeeds (find_last s p o)) /\ succeeds (starts_with s p) /\ succeeds (ends_with s p) /\
  succeeds (count_codepoints s) /\ succeeds (is_valid_utf8 s) /\ succeeds (escape_json s) /\ succeeds (has_escapable_chars s) /\
  succeeds (find_first_escapable_char s o).
Proof. exact p_c125_bytes. Qed.
Print Assumptions C125_bytes.
(** The converse for what reads the whole text: text that is not valid is rejected. *)
Theorem C125_rejected : forall inner adjacent after s chars ign, is_valid_utf8 s <> Ok true -> Fits s -> In 0 after ->
  throws (to_utf32 s) /\ throws (to_lower_str s) /\ throws (to_upper_str s) /\ throws (to_title_str s) /\ throws (count_chars s) /\
  throws (split_chars s chars SIZE_MAX ign) /\ throws (split_lines after s SIZE_MAX ign) /\
  ~ succeeds (reverse s) /\ ~ succeeds (to_decomposed inner s) /\ ~ succeeds (to_composed adjacent s).
Proof. exact p_c125_rejected. Qed.
Print Assumptions C125_rejected.
(** Case conversion accepts valid text in the sense of RFC 3629 ... *)
Theorem C125_rfc : forall s, rfc3629_valid s -> succeeds (to_lower_str s) /\ succeeds (to_upper_str s) /\ succeeds (to_title_str s) /\ is_valid_utf8 s = Ok true.
Proof. exact p_c125_rfc. Qed.
Print Assumptions C125_rfc.
(** ... and of the other texts that is_valid_utf8 accepts those without numbers
    beyond U+10FFFF, ... *)
Theorem C125_case_partial : forall s cs, to_utf32 s = Ok cs ->
  (succeeds (to_lower_str s) <-> Forall (fun c => c <= 0x10FFFF) cs) /\
  (succeeds (to_upper_str s) <-> Forall (fun c => c <= 0x10FFFF) cs) /\
  (succeeds (to_title_str s) <-> Forall (fun c => c <= 0x10FFFF) cs).
Proof. exact p_c125_case. Qed.
Print Assumptions C125_case_partial.
(** ... although is_valid_utf8 accepts more. *)
Theorem C125_case_refuted : is_valid_utf8 [xf7; xbf; xbf; xbf] = Ok true /\ to_utf32 [xf7; xbf; xbf; xbf] = Ok [0x1FFFFF] /\
  to_lower_str [xf7; xbf; xbf; xbf] = Throw YstringException /\ to_upper_str [xf7; xbf; xbf; xbf] = Throw YstringException /\
  to_title_str [xf7; xbf; xbf; xbf] = Throw YstringException.
Proof. repeat split; vm_compute; reflexivity. Qed.
Print Assumptions C125_case_refuted.
(** Replacing code points by index: an exception is possible (std::out_of_range)
    only when the start counts from the end and the end from the start. *)
Theorem C125_replace_codepoints_partial : forall s i j t, is_valid_utf8 s = Ok true -> Fits s -> index i -> index j ->
  (~ (i < 0 <= j)%Z -> succeeds (replace_codepoints s i j t)) /\ replace_codepoints s i j t <> Throw YstringException.
Proof. exact p_c125_replace_codepoints. Qed.
Print Assumptions C125_replace_codepoints_partial.
Theorem C125_replace_codepoints_refuted : is_valid_utf8 [x61; x62; x63; x64] = Ok true /\
  replace_codepoints [x61; x62; x63; x64] (-1) 4 [x78] = Throw StdOutOfRange.
Proof. split; reflexivity. Qed.
Print Assumptions C125_replace_codepoints_refuted.
Example C125_ex : is_valid_utf8 [x41; xe2; x82; xac] = Ok true /\ Fits [x41; xe2; x82; xac] /\ rfc3629_valid [x41; xe2; x82; xac] /\
  is_valid_utf8 [x41; xe2; x82] = Ok false /\ count_chars [x41; xe2; x82] = Throw YstringException /\
  insert_chars [x41; xe2; x82; xac] 3 [x42] = Throw YstringException /\ insert_chars [x41; xe2; x82; xac] (-2) [x42] = Ok [x42; x41; xe2; x82; xac].
Proof.
  split; [reflexivity|]. split; [reflexivity|]. split; [|repeat split; vm_compute; reflexivity].
  exists [0x41; 0x20AC]. split.
  - apply (Encoded_cons [x41] 0x41 [xe2; x82; xac] [0x20AC]); [reflexivity|]. apply (Encoded_cons [xe2; x82; xac] 0x20AC [] []); [reflexivity|constructor].
  - repeat constructor; try discriminate; intros [A B]; vm_compute in A, B; congruence.
Qed.
