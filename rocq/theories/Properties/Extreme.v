(** C90, C91: special and extreme values of counts, indices and offsets. *)
From Verif Require Import Base Spec.Utf8Spec Spec.Strings Spec.Safety
  Model.Decode Model.Encode Model.Subrange Model.Search Model.Split Model.CharClass Model.Chars Model.CodepointSet Model.CaseInsensitive
  Model.Escape Model.Unescape Proofs.ExtremeLemmas.

(** C90 is false.  A maximum of 0 replacements is documented to mean all of
    them; none is made. *)
Theorem C90_zero_replacements_refuted : forall (s from to : str) (a b : N), a <= 0x10FFFF -> b <= 0x10FFFF ->
  replace s from to 0 = Ok s /\ ci_replace s from to 0 = Ok s /\ replace_codepoint s a b 0 = Ok s.
Proof. exact p_c90_zero. Qed.
Print Assumptions C90_zero_replacements_refuted.
(** A maximum of 0 splits should leave the text in one part; there is no part. *)
Theorem C90_zero_splits_refuted : forall s sep chars after finder ign,
  split_sep s sep 0 ign = Ok [] /\ split_chars s chars 0 ign = Ok [] /\ split_lines after s 0 ign = Ok [] /\
  ci_split_sep s sep 0 ign = Ok [] /\ ci_split_chars s chars 0 ign = Ok [] /\ split_where s finder 0 ign = Ok [].
Proof. exact p_c90_splits. Qed.
Print Assumptions C90_zero_splits_refuted.
Example C90_ex : replace [x61; x61] [x61] [x62] 0 = Ok [x61; x61] /\ replace [x61; x61] [x61] [x62] 2 = Ok [x62; x62] /\
  split_sep [x61; x2c; x62] [x2c] 0 false = Ok [] /\ split_sep [x61; x2c; x62] [x2c] 1 false = Ok [[x61]; [x62]].
Proof. repeat split; reflexivity. Qed.

(** C91.  An offset beyond the end of the text: undefined in every forward
    search (and only then, where "iff"). *)
Theorem C91_offset_beyond_refuted : forall (s p : str) (f : N -> bool) (after : list N) (o : N), Fits s ->
  (find_first s p o = UB <-> size s < o) /\
  (find_first_where s f o = UB <-> size s < o) /\
  (In 0 after -> (find_first_newline after s o = UB <-> size s < o)) /\
  (get_next_char_range s o = UB <-> size s < o) /\
  (find_first_escapable_char s o = UB <-> size s < o) /\
  (size s < o -> find_first_escaped_char s o = UB /\ get_prev_char_range s o = UB) /\
  (forall g c t, p = g ++ t -> uchar g c -> (ci_find_first s p o = UB <-> size s < o)).
Proof. exact p_c91_offset. Qed.
Print Assumptions C91_offset_beyond_refuted.
Theorem C91_offset_sets_refuted : forall (s : str) (chars : u32str) (set : cpset) (o : N), Fits s ->
  (find_first_of s chars o = UB <-> size s < o) /\ (find_first_of_set s set o = UB <-> size s < o) /\
  (ci_find_first_of s chars o = UB <-> size s < o) /\ (ci_find_first_of_set s set o = UB <-> size s < o).
Proof. exact p_c91_sets. Qed.
Print Assumptions C91_offset_sets_refuted.
(** Searching backwards it means the end. *)
Theorem C91_backward_offset : forall (s p : str) (f : N -> bool) (after : list N) (o : N), size s <= o ->
  find_last s p o = find_last s p (size s) /\ find_last_where s f o = find_last_where s f (size s) /\
  find_last_newline after s o = find_last_newline after s (size s) /\ ci_find_last s p o = ci_find_last s p (size s).
Proof. exact p_c91_backward. Qed.
Print Assumptions C91_backward_offset.
(** The most negative index or count: undefined where its absolute value is computed. *)
Theorem C91_most_negative_refuted : forall (s t from to : str) (a b : N) (i : Z),
  get_codepoint_pos s PTRDIFF_MIN = UB /\ insert_codepoint s PTRDIFF_MIN a = UB /\ insert_codepoints s PTRDIFF_MIN t = UB /\
  replace s from to PTRDIFF_MIN = UB /\ (a <= 0x10FFFF -> b <= 0x10FFFF -> replace_codepoint s a b PTRDIFF_MIN = UB) /\
  ((0 <= i)%Z -> get_codepoint_substring s PTRDIFF_MIN i = UB /\ replace_codepoints s PTRDIFF_MIN i t = UB).
Proof. exact p_c91_min. Qed.
Print Assumptions C91_most_negative_refuted.
(** Exactly these values are undefined in these functions, whatever the text is. *)
Theorem C91_most_negative_exactly : forall (s t from to : str) (c a b : N) (i j : Z), Fits s ->
  (PTRDIFF_MIN <= i <= PTRDIFF_MAX)%Z -> (PTRDIFF_MIN <= j <= PTRDIFF_MAX)%Z ->
  (get_codepoint_pos s i = UB <-> i = PTRDIFF_MIN) /\
  (insert_codepoint s i c = UB <-> i = PTRDIFF_MIN) /\
  (insert_codepoints s i t = UB <-> i = PTRDIFF_MIN) /\
  (replace s from to i = UB <-> i = PTRDIFF_MIN) /\
  (replace_codepoint s a b i = UB <-> i = PTRDIFF_MIN /\ a <= 0x10FFFF /\ b <= 0x10FFFF) /\
  (get_codepoint_substring s i j = UB <-> (i = PTRDIFF_MIN /\ (0 <= j \/ j = PTRDIFF_MIN)) \/ (j = PTRDIFF_MIN /\ 0 <= i))%Z /\
  (replace_codepoints s i j t = UB <-> (i = PTRDIFF_MIN /\ (0 <= j \/ j = PTRDIFF_MIN)) \/ (j = PTRDIFF_MIN /\ 0 <= i))%Z.
Proof. exact p_c91_exactly. Qed.
Print Assumptions C91_most_negative_exactly.
Example C91_most_negative_ex : Fits [x61; x62] /\ get_codepoint_substring [x61; x62] 1 PTRDIFF_MIN = UB /\
  get_codepoint_substring [x61; x62] PTRDIFF_MIN (-1) = Ok [x61] /\ get_codepoint_substring [x61; x62] (-1) PTRDIFF_MIN = Ok [x61].
Proof. split; [|repeat split; vm_compute; reflexivity]. unfold Fits, PTRDIFF_MAX. cbn. lia. Qed.
(** The other functions accept every index and count, on text they can read backwards (C82). *)
Theorem C91_any_index_partial : forall (s t from to : str) (c : N) (p : Z), Fits s -> ~ long_run s -> ~ long_run from ->
  defined (get_codepoint s p) /\ defined (get_char_pos s p) /\ defined (get_char_range s p) /\
  defined (insert_char s p c) /\ defined (insert_chars s p t) /\ defined (ci_replace s from to p).
Proof. exact p_c91_accepts. Qed.
Print Assumptions C91_any_index_partial.
Example C91_ex : find_first [x61; x62] [x62] 2 = Ok (Sub 2 0) /\ find_first [x61; x62] [x62] 3 = UB /\
  get_codepoint [x61; x62] PTRDIFF_MIN = Ok (Sub 0 0, INVALID_CHAR) /\ find_last [x61; x62] [x62] SIZE_MAX = Ok (Sub 1 1).
Proof. repeat split; vm_compute; reflexivity. Qed.
