(** C80-C82: behaviour on arbitrary byte strings. *)
From Verif Require Import Base Spec.Utf8Spec Spec.Strings Spec.Safety Spec.Slices Spec.Stuck Spec.CaseFold
  Model.Decode Model.Encode Model.Subrange Model.Search Model.Split Model.CharClass Model.ConvertCase Model.Chars Model.CaseInsensitive
  Model.Escape Model.Unescape Proofs.SafeProps Proofs.SafeMore Proofs.BackwardLemmas Proofs.BackwardCi Proofs.ExactIndex.

(** C80.  Everything that reads text forwards (or skips backwards) ends with a
    result or an exception on every byte string, valid or not. *)
Theorem C80_decode : forall (s : str) (i : nat), (i <= length s)%nat ->
  defined (decode_next s i) /\
  defined (safe_decode_next s i) /\
  defined (skip_next s i) /\
  defined (skip_prev s i).
Proof. exact p_c80_decode. Qed.
Print Assumptions C80_decode.
Theorem C80_view : forall s : str,
  defined (remove_utf8_codepoint s) /\
  defined (pop_utf8_codepoint s) /\
  defined (remove_last_utf8_codepoint s).
Proof. exact p_c80_view. Qed.
Print Assumptions C80_view.
Theorem C80_scan : forall (s : str) (c : N),
  defined (contains s c) /\
  defined (count_codepoints s) /\
  defined (is_valid_utf8 s) /\
  defined (to_utf32 s) /\
  defined (to_lower_str s) /\
  defined (to_upper_str s) /\
  defined (to_title_str s) /\
  defined (append s c) /\
  defined (replace_invalid_utf8 s c) /\
  defined (replace_invalid_utf8_inplace s c).
Proof. exact p_c80_scan. Qed.
Print Assumptions C80_scan.
Theorem C80_search : forall (s p : str) (f : N -> bool) (after : list N) (o : N), Fits s -> o <= size s ->
  defined (find_first s p o) /\
  defined (find_last s p o) /\
  defined (find_first_where s f o) /\
  (In 0 after -> defined (find_first_newline after s o)) /\
  defined (starts_with s p) /\
  defined (ends_with s p) /\
  defined (trim_start_where s f) /\
  (In 0 after -> defined (trim_start_default after s)).
Proof. exact p_c80_search. Qed.
Print Assumptions C80_search.
Theorem C80_codepoints : forall (s t : str) (c : N) (p q : Z), Fits s -> index p -> index q ->
  defined (get_codepoint_pos s p) /\
  defined (get_codepoint_substring s p q) /\
  defined (replace_codepoints s p q t) /\
  defined (insert_codepoint s p c) /\
  defined (insert_codepoints s p t).
Proof. exact p_c80_codepoints. Qed.
Print Assumptions C80_codepoints.
Theorem C80_chars : forall (s : str) (o : N) (p : Z), Fits s -> o <= size s -> (0 <= p)%Z ->
  defined (get_next_char_range s o) /\
  defined (count_chars s) /\
  defined (get_char_pos s p) /\
  defined (get_char_range s p).
Proof. exact p_c80_chars. Qed.
Print Assumptions C80_chars.
Theorem C80_split : forall (s sep : str) (chars : u32str) (after : list N) (m : N) (ig : bool), Fits s ->
  defined (split_sep s sep m ig) /\
  defined (split_chars s chars m ig) /\
  (In 0 after -> defined (split_lines after s m ig)) /\
  defined (ci_split_sep s sep m ig) /\
  defined (ci_split_chars s chars m ig).
Proof. exact p_c80_split. Qed.
Print Assumptions C80_split.
Theorem C80_replace : forall (s from to : str) (a b : N) (m : Z), index m ->
  defined (replace s from to m) /\
  defined (replace_codepoint s a b m).
Proof. exact p_c80_replace. Qed.
Print Assumptions C80_replace.
Theorem C80_ignoring_case : forall (s t : str) (o : N), o <= size s ->
  defined (ci_compare s t) /\
  defined (ci_equal s t) /\
  defined (ci_less s t) /\
  defined (ci_starts_with s t) /\
  defined (ci_find_first s t o).
Proof. exact p_c80_ignoring_case. Qed.
Print Assumptions C80_ignoring_case.
(** Indices counted from the front (for the others see C82). *)
Theorem C80_indices : forall (s t : str) (c : N) (p q : Z), Fits s -> (0 <= p <= PTRDIFF_MAX)%Z -> (0 <= q <= PTRDIFF_MAX)%Z ->
  defined (get_codepoint s p) /\
  defined (get_char_substring s p q) /\
  defined (replace_chars s p q t) /\
  defined (insert_char s p c) /\
  defined (insert_chars s p t).
Proof. exact p_c80_indices. Qed.
Print Assumptions C80_indices.
(** Escape sequences (for [unescape] see C60). *)
Theorem C80_escape : forall (s : str) (o : N), Fits s -> o <= size s ->
  defined (escape_json s) /\
  defined (has_escapable_chars s) /\
  defined (find_first_escapable_char s o) /\
  defined (has_escaped_chars s) /\
  defined (find_first_escaped_char s o) /\
  (forall r s' b, unescape_next s = ((r, s'), b) -> defined r).
Proof. exact p_c80_escape. Qed.
Print Assumptions C80_escape.
Example C80_ex : Fits [xe2; x82] /\ index (-3) /\ to_utf32 [xe2; x82] = Throw YstringException /\
  replace_invalid_utf8 [x41; xff] 0x3F = Ok [x41; x3f] /\ find_first [xff; xfe; xfd] [xfe] 0 = Ok (Sub 1 1).
Proof. repeat split; vm_compute; congruence. Qed.

(** C81.  Whatever the bytes, a range that is returned lies inside the text and
    on the right side of the offset; a position is npos or inside the text. *)
Theorem C81_ranges_from : forall (s p : str) (f : N -> bool) (after : list N) (o : N), Fits s -> o <= size s ->
  let ok r := inside s r /\ (sub_length r <> 0 -> o <= sub_offset r) in
  returns ok (find_first s p o) /\ (In 0 after -> returns ok (find_first_newline after s o)) /\ returns ok (ci_find_first s p o) /\
  returns (fun r => ok (fst r)) (find_first_where s f o).
Proof. exact p_c81_from. Qed.
Print Assumptions C81_ranges_from.
Theorem C81_ranges_before : forall (s p : str) (f : N -> bool) (after : list N) (o : N), Fits s ->
  let ok r := inside s r /\ (sub_length r <> 0 -> sub_offset r + sub_length r <= o) in
  returns ok (find_last s p o) /\ (In 0 after -> returns ok (find_last_newline after s o)) /\ returns ok (ci_find_last s p o) /\
  returns (fun r => ok (fst r)) (find_last_where s f o).
Proof. exact p_c81_before. Qed.
Print Assumptions C81_ranges_before.
Theorem C81_positions : forall (s : str) (p : Z), Fits s ->
  returns (fun n => n = npos \/ n <= size s) (get_codepoint_pos s p) /\
  returns (fun n => n = npos \/ n <= size s) (get_char_pos s p) /\
  returns (fun r => inside s (fst r)) (get_codepoint s p) /\
  returns (inside s) (get_char_range s p).
Proof. exact p_c81_pos. Qed.
Print Assumptions C81_positions.
Theorem C81_characters : forall (s : str) (o : N), Fits s -> o <= size s ->
  returns (fun r => sub_offset r = o /\ o + sub_length r <= size s /\ (sub_length r = 0 -> o = size s)) (get_next_char_range s o) /\
  returns (fun r => sub_offset r + sub_length r = o /\ (sub_length r = 0 -> o = 0)) (get_prev_char_range s o).
Proof. exact p_c81_ranges. Qed.
Print Assumptions C81_characters.
Theorem C81_pieces : forall (s : str) (f : N -> bool) (p q : Z), Fits s -> index p -> index q ->
  let part t := exists u v, s = u ++ t ++ v in
  returns part (get_codepoint_substring s p q) /\ returns part (get_char_substring s p q) /\
  returns part (trim_start_where s f) /\ returns part (trim_end_where s f) /\ returns part (trim_where s f).
Proof. exact p_c81_pieces. Qed.
Print Assumptions C81_pieces.
Example C81_ex : find_first_newline [0] [xff; x0d; x0a] 1 = Ok (Sub 1 2) /\ get_char_range [x41; xcc; x81; xff] 0 = Throw YstringException /\
  get_char_range [x41; xcc; x81; x42] 0 = Ok (Sub 0 3) /\ find_last [xff; xfe; xff] [xff] 2 = Ok (Sub 0 1).
Proof. repeat split; vm_compute; reflexivity. Qed.

(** C82 is false: seven continuation bytes after some byte, at the end of a text,
    make every function that decodes backwards from there undefined.  *)
Theorem C82_backward_defined_refuted : forall u b g, length g = 7%nat -> Forall cont g -> Fits (u ++ b :: g) -> let s := u ++ b :: g in
  (forall f, find_last_where s f npos = UB) /\ (forall f, trim_end_where s f = UB) /\ reverse s = UB /\
  get_char_range s (-1) = UB /\ get_codepoint s (-1) = UB /\ (forall t, ci_ends_with s t = UB).
Proof. exact p_c82_tail. Qed.
Print Assumptions C82_backward_defined_refuted.
Example C82_ex : Fits ([x41] ++ x42 :: [x80; x80; x80; x80; x80; x80; x80]) /\ Forall cont [x80; x80; x80; x80; x80; x80; x80].
Proof. split; [reflexivity|]. repeat constructor; vm_compute; congruence. Qed.
(** Without such a run (no valid text has one) they are all defined. *)
Theorem C82_backward_search_partial : forall (s p : str) (f : N -> bool) (after : list N) (o : N), Fits s -> o <= size s -> ~ long_run s ->
  defined (decode_prev s (N.to_nat o)) /\ defined (safe_decode_prev s (N.to_nat o)) /\ defined (pop_last_utf8_codepoint s) /\
  defined (find_last_where s f o) /\ (In 0 after -> defined (find_last_newline after s o)) /\
  defined (trim_end_where s f) /\ defined (trim_where s f) /\
  (In 0 after -> defined (trim_end_default after s) /\ defined (trim_default after s)) /\
  defined (get_prev_char_range s o) /\ defined (reverse s).
Proof. exact p_c82_search. Qed.
Print Assumptions C82_backward_search_partial.
Theorem C82_backward_positions_partial : forall (s t : str) (c : N) (p q : Z), Fits s -> index p -> index q -> ~ long_run s ->
  defined (get_codepoint s p) /\ defined (get_char_pos s p) /\ defined (get_char_range s p) /\
  defined (get_char_substring s p q) /\ defined (replace_chars s p q t) /\ defined (insert_char s p c) /\ defined (insert_chars s p t).
Proof. exact p_c82_positions. Qed.
Print Assumptions C82_backward_positions_partial.
Theorem C82_backward_ignoring_case_partial : forall (s t to : str) (o : N) (m : Z), Fits s -> ~ long_run s -> ~ long_run t ->
  defined (ci_ends_with s t) /\ defined (ci_find_last s t o) /\ defined (ci_replace s t to m).
Proof. exact p_c82_ci. Qed.
Print Assumptions C82_backward_ignoring_case_partial.
Theorem C82_valid_text : forall s cs, Text s cs -> ~ long_run s.
Proof. exact p_c82_valid. Qed.
Print Assumptions C82_valid_text.
(** The undefined calls, exactly: decoding backwards, over code points that do
    not stop the search, reaches a text [r] with seven continuation bytes at
    its end. *)
Theorem C82_search_exactly : forall s f o, find_last_where s f o = UB <->
  exists r u us post, s = r ++ u ++ post /\ N.min o (size s) = size (r ++ u) /\ Text u us /\
    Forall (fun c => f c = false) us /\ long_cont_tail r.
Proof. exact last_where_ub. Qed.
Print Assumptions C82_search_exactly.
Theorem C82_trim_end_exactly : forall s p, Fits s -> (trim_end_where s p = UB <->
  exists r u us, s = r ++ u /\ Text u us /\ Forall (fun c => p c = true) us /\ long_cont_tail r).
Proof. exact trim_end_ub. Qed.
Print Assumptions C82_trim_end_exactly.
(** Here [g] is the first code point that stays: a malformed sequence before it throws. *)
Theorem C82_trim_exactly : forall p s, Fits s -> (trim_where s p = UB <->
  exists u us g c x r w ws, s = u ++ r ++ w /\ Text u us /\ Forall (fun c => p c = true) us /\
    uchar g c /\ p c = false /\ r ++ w = g ++ x /\ Text w ws /\ Forall (fun c => p c = true) ws /\ long_cont_tail r).
Proof. exact trim_ub. Qed.
Print Assumptions C82_trim_exactly.
Theorem C82_reverse_exactly : forall s, Fits s -> (reverse s = UB <-> exists r u cs, s = r ++ u /\ Text u cs /\ long_cont_tail r).
Proof. exact reverse_ub. Qed.
Print Assumptions C82_reverse_exactly.
(** [ps] are the characters that can be counted from the end, [m] are marks
    behind [r], which belong to a character that can not be decoded. *)
Theorem C82_position_exactly : forall s k, Fits s -> (get_char_pos s k = UB <->
  exists r m us ps, s = r ++ m ++ concat ps /\ Text m us /\ Forall (fun c => is_mark c = true) us /\
    (Forall (one_char is_mark) ps /\ Forall (starts_unmarked is_mark) ps) /\ (Z.of_nat (length ps) < - k)%Z /\ long_cont_tail r).
Proof. exact char_pos_ub. Qed.
Print Assumptions C82_position_exactly.
Theorem C82_character_before_exactly : forall s o, Fits s -> o <= size s -> (get_prev_char_range s o = UB <->
  exists r m us v, s = r ++ m ++ v /\ o = size (r ++ m) /\ Text m us /\ Forall (fun c => is_mark c = true) us /\ long_cont_tail r).
Proof. exact prev_range_ub. Qed.
Print Assumptions C82_character_before_exactly.
Theorem C82_ends_with_exactly : forall s p ps, Text p ps -> (ci_ends_with s p = UB <->
  exists r u us qs vs, s = r ++ u /\ Text u us /\ ps = qs ++ vs /\ fold_case us = fold_case vs /\ long_cont_tail r).
Proof. exact ci_ends_ub. Qed.
Print Assumptions C82_ends_with_exactly.
Theorem C82_find_last_exactly : forall s p ps o, ps <> [] -> Text p ps -> (ci_find_last s p o = UB <->
  exists r u us post, s = r ++ u ++ post /\ N.min o (size s) = size (r ++ u) /\ Text u us /\ only_at_start ps us /\ long_cont_tail r).
Proof. exact ci_last_ub. Qed.
Print Assumptions C82_find_last_exactly.
Theorem C82_replace_exactly : forall s from ps to m, ps <> [] -> Text from ps -> Fits s -> (ci_replace s from to m = UB <->
  (m < 0)%Z /\ exists r, CiStuckBack ps (Z.to_N (- m)) s r /\ long_cont_tail r).
Proof. exact ci_replace_ub. Qed.
Print Assumptions C82_replace_exactly.
Example C82_exactly_ex :
  find_last_where [x61; x80; x80; x80; x80; x80; x80; x80; x62; x63] (fun c => c =? 0x64) 9 = UB /\
  find_last_where [x61; x80; x80; x80; x80; x80; x80; x80; x62; x63] (fun c => c =? 0x62) 9 = Ok (Sub 8 1, 0x62) /\
  find_last_where [x80; x80; x80; x80; x80; x80; x80; x62; x63] (fun c => c =? 0x64) 9 = Throw YstringException /\
  trim_where [x61; x80; x80; x80; x80; x80; x80; x80; x20] (fun c => c =? 0x20) = UB /\
  trim_where [xff; x80; x80; x80; x80; x80; x80; x80; x20] (fun c => c =? 0x20) = Throw YstringException /\
  ci_ends_with [x61; x80; x80; x80; x80; x80; x80; x80; x62] [x43] = Ok false /\
  ci_ends_with [x61; x80; x80; x80; x80; x80; x80; x80; x62] [x42] = UB.
Proof. repeat split; vm_compute; reflexivity. Qed.

Example C82_ex2 : ~ long_run [x80; x80; x41; xff].
Proof. intros (u & b & g & v & E & L & _). apply (f_equal (@length byte)) in E. rewrite !app_length in E. cbn [length] in E. rewrite app_length, L in E. lia. Qed.

(** The functions with character indices ([stuck] in Spec/Stuck.v). *)
Theorem C82_range_exactly : forall s k, Fits s -> (get_char_range s k = UB <-> stuck is_mark s k).
Proof. exact p_c82_range. Qed.
Print Assumptions C82_range_exactly.
Theorem C82_insert_exactly : forall s k, Fits s ->
  (forall c, insert_char s k c = UB <-> stuck is_mark s k) /\ (forall t, insert_chars s k t = UB <-> stuck is_mark s k).
Proof. exact p_c82_insert. Qed.
Print Assumptions C82_insert_exactly.
Theorem C82_substring_exactly : forall s i j t, Fits s -> index i -> index j ->
  ((i < 0)%Z -> (get_char_substring s i j = UB <-> stuck is_mark s i) /\ (replace_chars s i j t = UB <-> stuck is_mark s i)) /\
  ((0 <= i)%Z -> (0 <= j)%Z -> get_char_substring s i j <> UB /\ replace_chars s i j t <> UB) /\
  ((0 <= i)%Z -> (j < 0)%Z ->
     (get_char_substring s i j = UB <-> exists u v, s = u ++ v /\ get_char_pos s i = Ok (size u) /\ stuck is_mark v j) /\
     (replace_chars s i j t = UB <-> exists u v, s = u ++ v /\ get_char_pos s i = Ok (size u) /\ stuck is_mark v j)).
Proof. exact p_c82_substring. Qed.
Print Assumptions C82_substring_exactly.
Example C82_indices_ex : let s := [x61; x80; x80; x80; x80; x80; x80; x80; x62; x63] in
  stuck is_mark s (-3) /\ index (-3) /\ Fits s /\ get_char_range s (-3) = UB /\ get_char_range s (-2) = Ok (Sub 8 1) /\
  get_char_substring s 0 (-3) = UB /\ get_char_substring s 0 (-2) = Ok [x61; x80; x80; x80; x80; x80; x80; x80] /\ get_char_substring s 1 (-2) = Throw YstringException.
Proof.
  intros s. assert (Fits s) as HF by (vm_compute; first [reflexivity|discriminate]). assert (get_char_range s (-3) = UB) as E by (vm_compute; reflexivity).
  split; [now apply (C82_range_exactly s (-3) HF)|]. split; [split; [reflexivity|vm_compute; discriminate]|]. split; [exact HF|]. repeat split; vm_compute; reflexivity.
Qed.
