(** C21-C30, C35: characters and code points by index. *)
From Verif Require Import Base Spec.Utf8Spec Spec.Strings Spec.Slices Model.Decode Model.Encode Model.Subrange Model.Search
  Model.CharClass Model.Chars Proofs.SliceLemmas Proofs.CharLemmas Proofs.PieceLemmas Proofs.AnyStringLemmas Proofs.PositionProps
  Proofs.CharMalformed Proofs.CharSliceMalformed Proofs.CharCross.

(** Every valid string is the concatenation of its code points. *)
Theorem C24_every_valid_string : forall s cs, Text s cs <-> exists ps, concat ps = s /\ Forall2 uchar ps cs.
Proof. exact codepoint_list. Qed.
Print Assumptions C24_every_valid_string.
(** Other strings are cut into pieces by what their bytes announce, in one way;
    for valid strings the pieces are the code points. *)
Theorem C24_every_string : forall s, exists ps, Pieces ps /\ concat ps = s /\
  forall qs, Pieces qs -> concat qs = s -> qs = ps.
Proof. exact p_c24_every_string. Qed.
Print Assumptions C24_every_string.
Theorem C24_pieces_of_valid_text : forall ps, Codepoints ps -> Pieces ps.
Proof. exact codepoints_pieces. Qed.
Print Assumptions C24_pieces_of_valid_text.
Theorem C24_positions : forall ps k, CodeUnits ps -> Fits (concat ps) ->
  (- 0x8000000000000000 < k <= 0x7FFFFFFFFFFFFFFF)%Z ->
  get_codepoint_pos (concat ps) k = Ok (position ps k).
Proof. exact get_codepoint_pos_spec. Qed.
Print Assumptions C24_positions.
Theorem C24_both_ends_agree : forall s k n, size s < 0xFFFFFFFF -> count_codepoints s = Ok n -> (0 <= k < Z.of_N n)%Z ->
  get_codepoint_pos s k = get_codepoint_pos s (k - Z.of_N n) /\ exists o, get_codepoint_pos s k = Ok o /\ o < size s.
Proof. exact p_c24_both_ends. Qed.
Print Assumptions C24_both_ends_agree.
(** The remaining value of ptrdiff_t: its absolute value overflows. *)
Theorem C24_most_negative : forall s, get_codepoint_pos s (- 0x8000000000000000) = UB.
Proof. exact p_c24_min. Qed.
Print Assumptions C24_most_negative.
Example C24_ex : Codepoints [[x61]; [xcc; x80]; [x62]] /\
  get_codepoint_pos [x61; xcc; x80; x62] 2 = Ok 3 /\ get_codepoint_pos [x61; xcc; x80; x62] (-2) = Ok 1.
Proof.
  split; [|split; reflexivity].
  repeat constructor; eexists; [apply (uchar1 x61)|apply (uchar2 xcc x80)|apply (uchar1 x62)]; unfold cont, u8; cbn; lia.
Qed.

Example C24_stray_ex : CodeUnits [[xe2; x82]; [x41]; [x80; x80]; [xff]] /\
  get_codepoint_pos [xe2; x82; x41; x80; x80; xff] 2 = Ok 3 /\ get_codepoint_pos [xe2; x82; x41; x80; x80; xff] (-1) = Ok 5.
Proof. exact ex_stray_units. Qed.

(** C25 *)
Theorem C25_get_codepoint : forall ps k, CodeUnits ps ->
  (forall p c, (0 <= k)%Z -> nth_error ps (Z.to_nat k) = Some p -> uchar p c ->
     get_codepoint (concat ps) k = Ok (Sub (offset_of ps (Z.to_nat k)) (size p), c)) /\
  (forall p c, (- Z.of_nat (length ps) <= k < 0)%Z -> nth_error ps (Z.to_nat (Z.of_nat (length ps) + k)) = Some p -> uchar p c ->
     get_codepoint (concat ps) k = Ok (Sub (offset_of ps (Z.to_nat (Z.of_nat (length ps) + k))) (size p), c)) /\
  ((Z.of_nat (length ps) <= k)%Z -> get_codepoint (concat ps) k = Ok (Sub (size (concat ps)) 0, INVALID_CHAR)) /\
  ((k < - Z.of_nat (length ps))%Z -> get_codepoint (concat ps) k = Ok (Sub 0 0, INVALID_CHAR)).
Proof. exact p_c25. Qed.
Print Assumptions C25_get_codepoint.
(** Pieces that are no code points: an exception, but undefined when reached
    from the end and behind seven continuation bytes (C05). *)
Theorem C25_malformed : forall ps k p, CodeUnits ps -> (forall c, ~ uchar p c) ->
  ((0 <= k)%Z -> nth_error ps (Z.to_nat k) = Some p -> get_codepoint (concat ps) k = Throw YstringException) /\
  forall n, (k < 0)%Z -> (Z.of_nat n = Z.of_nat (length ps) + k)%Z -> nth_error ps n = Some p ->
    (~ long_cont_tail (concat (firstn (S n) ps)) -> get_codepoint (concat ps) k = Throw YstringException) /\
    (long_cont_tail (concat (firstn (S n) ps)) -> get_codepoint (concat ps) k = UB).
Proof. exact p_c25_malformed. Qed.
Print Assumptions C25_malformed.
Example C25_stray_ex : get_codepoint [xe2; x82; x41; x80; x80; xff] 1 = Ok (Sub 2 1, 0x41) /\
  get_codepoint [xe2; x82; x41; x80; x80; xff] 2 = Throw YstringException /\
  get_codepoint [xe2; x82; x41; x80; x80; xff] (-2) = Throw YstringException.
Proof. repeat split; reflexivity. Qed.
Example C25_ex : get_codepoint [x61; xcc; x80; x62] (-2) = Ok (Sub 1 2, 0x300).
Proof. reflexivity. Qed.

(** C26: both indices from the start, both from the end and in order, or the
    first from the start and the second from the end. *)
Theorem C26_substring_partial : forall ps i j, CodeUnits ps -> Fits (concat ps) ->
  (- 0x8000000000000000 < i <= 0x7FFFFFFFFFFFFFFF)%Z -> (- 0x8000000000000000 < j <= 0x7FFFFFFFFFFFFFFF)%Z ->
  (0 <= i /\ 0 <= j)%Z \/ (i < j < 0)%Z \/ (j < 0 <= i)%Z ->
  get_codepoint_substring (concat ps) i j = Ok (concat (units_between ps i j)).
Proof. exact cp_substring_ok. Qed.
Print Assumptions C26_substring_partial.
(** ... or the last code points up to the end. *)
Theorem C26_last_partial : forall ps i j, CodeUnits ps -> Fits (concat ps) ->
  (- 0x8000000000000000 < i <= 0x7FFFFFFFFFFFFFFF)%Z -> (- 0x8000000000000000 < j <= 0x7FFFFFFFFFFFFFFF)%Z ->
  (i < 0)%Z -> (Z.of_nat (length ps) <= j)%Z ->
  get_codepoint_substring (concat ps) i j = Ok (concat (units_between ps i j)).
Proof. exact p_c26_end. Qed.
Print Assumptions C26_last_partial.
(** Both from the end and not in order: everything before [i] instead of nothing. *)
Theorem C26_reversed_refuted : forall ps i j, CodeUnits ps -> Fits (concat ps) ->
  (- 0x8000000000000000 < i <= 0x7FFFFFFFFFFFFFFF)%Z -> (- 0x8000000000000000 < j <= 0x7FFFFFFFFFFFFFFF)%Z ->
  (j <= i < 0)%Z ->
  get_codepoint_substring (concat ps) i j = Ok (concat (units_before ps i)).
Proof. exact cp_substring_reversed. Qed.
Print Assumptions C26_reversed_refuted.
(** From the end to the start: the length is an offset from the start of the string. *)
Theorem C26_crossed_refuted : forall ps i j, CodeUnits ps -> Fits (concat ps) ->
  (- 0x8000000000000000 < i <= 0x7FFFFFFFFFFFFFFF)%Z -> (- 0x8000000000000000 < j <= 0x7FFFFFFFFFFFFFFF)%Z ->
  (i < 0 <= j)%Z ->
  get_codepoint_substring (concat ps) i j =
  Ok (firstn (N.to_nat (N.max (offset_of ps (resolve (length ps) i)) (offset_of ps (resolve (length ps) j))))
        (concat (skipn (resolve (length ps) i) ps))).
Proof. exact cp_substring_crossed. Qed.
Print Assumptions C26_crossed_refuted.
Example C26_crossed_ex : get_codepoint_substring [x61; x62; x63; x64] (-3) 2 = Ok [x62; x63] (* should be [x62] *).
Proof. exact p_c26_crossed. Qed.
Example C26_ex : get_codepoint_substring [x61; x62; x63; x64] 1 (-1) = Ok [x62; x63].
Proof. reflexivity. Qed.

(** C28 *)
Theorem C28_insert_codepoint : forall ps k c, CodeUnits ps -> Fits (concat ps) ->
  (- 0x8000000000000000 < k <= 0x7FFFFFFFFFFFFFFF)%Z -> (Z.abs k <= Z.of_nat (length ps))%Z -> c <= 0x10FFFF ->
  exists g, encodes g c /\
    insert_codepoint (concat ps) k c = Ok (concat (units_before ps k) ++ g ++ concat (units_after ps k k)).
Proof. exact cp_insert_cp. Qed.
Print Assumptions C28_insert_codepoint.
Theorem C28_insert_codepoints : forall ps k t, CodeUnits ps -> Fits (concat ps) ->
  (- 0x8000000000000000 < k <= 0x7FFFFFFFFFFFFFFF)%Z -> (Z.abs k <= Z.of_nat (length ps))%Z ->
  insert_codepoints (concat ps) k t = Ok (concat (units_before ps k) ++ t ++ concat (units_after ps k k)).
Proof. exact cp_insert_str. Qed.
Print Assumptions C28_insert_codepoints.
(** Out of range: an exception, except that an empty text is accepted anywhere. *)
Theorem C28_out_of_range : forall ps k c t, CodeUnits ps -> Fits (concat ps) ->
  (- 0x8000000000000000 < k <= 0x7FFFFFFFFFFFFFFF)%Z -> (Z.of_nat (length ps) < Z.abs k)%Z ->
  insert_codepoint (concat ps) k c = Throw YstringException /\
  (t <> [] -> insert_codepoints (concat ps) k t = Throw YstringException) /\
  insert_codepoints (concat ps) k [] = Ok (concat ps).
Proof. exact cp_insert_out. Qed.
Print Assumptions C28_out_of_range.
Theorem C28_no_codepoint : forall ps k c, CodeUnits ps -> Fits (concat ps) -> (- 0x8000000000000000 < k <= 0x7FFFFFFFFFFFFFFF)%Z -> 0x10FFFF < c ->
  insert_codepoint (concat ps) k c = Throw YstringException.
Proof. exact p_c28_no_codepoint. Qed.
Print Assumptions C28_no_codepoint.
Example C28_ex : insert_codepoint [x61; xcc; x80; x62] (-1) 0x20AC = Ok [x61; xcc; x80; xe2; x82; xac; x62].
Proof. reflexivity. Qed.

(** C21.  [is_mark] is the library's own predicate; C56 relates it to Unicode. *)
Theorem C21_one_division : forall s cs, Text s cs ->
  exists ps, Characters is_mark ps /\ concat ps = s /\
    forall qs, Characters is_mark qs -> concat qs = s -> qs = ps.
Proof. exact p_c21_exists. Qed.
Print Assumptions C21_one_division.
Theorem C21_all_functions_agree : forall ps, Characters is_mark ps -> Fits (concat ps) ->
  count_chars (concat ps) = Ok (N.of_nat (length ps)) /\
  (forall k p, nth_error ps k = Some p ->
     get_next_char_range (concat ps) (offset_of ps k) = Ok (Sub (offset_of ps k) (size p)) /\
     get_prev_char_range (concat ps) (offset_of ps (S k)) = Ok (Sub (offset_of ps k) (size p)) /\
     p <> []) /\
  get_next_char_range (concat ps) (size (concat ps)) = Ok (Sub (size (concat ps)) 0) /\
  get_prev_char_range (concat ps) 0 = Ok (Sub 0 0).
Proof. exact p_c21_agree. Qed.
Print Assumptions C21_all_functions_agree.
Theorem C21_malformed : forall u cs r, Text u cs -> Malformed r -> Fits (u ++ r) ->
  count_chars (u ++ r) = Throw YstringException.
Proof. exact count_chars_bad. Qed.
Print Assumptions C21_malformed.
Example C21_ex : Characters is_mark [[x61; xcc; x80]; [x62]] /\ count_chars [x61; xcc; x80; x62] = Ok 2.
Proof. split; [exact ex_chars|vm_compute; reflexivity]. Qed.

(** C22: every index, also the most negative. *)
Theorem C22_get_char_pos : forall ps k, Characters is_mark ps -> Fits (concat ps) ->
  get_char_pos (concat ps) k = Ok (position ps k).
Proof. exact p_c22. Qed.
Print Assumptions C22_get_char_pos.
Theorem C22_both_ends : forall ps k, (0 <= k < Z.of_nat (length ps))%Z ->
  position ps k = position ps (k - Z.of_nat (length ps)).
Proof. exact position_both_ends. Qed.
Print Assumptions C22_both_ends.

(** Strings that are not valid: valid characters up to the first malformed
    bytes, and back to the last ones, where marks at the start of the valid rest
    belong to a character that can not be decoded. *)
Theorem C22_every_string : forall s, (forall cs, ~ Text s cs) ->
  (exists ps r, s = concat ps ++ r /\ Characters is_mark ps /\ Malformed r) /\
  (exists r m us ps, s = r ++ m ++ concat ps /\ MalformedEnd r /\ Text m us /\ Forall (fun c => is_mark c = true) us /\
    Forall (one_char is_mark) ps /\ Forall (starts_unmarked is_mark) ps).
Proof. exact chars_of_invalid. Qed.
Print Assumptions C22_every_string.
(** From the start: the end of the last character can not be found, the end of
    every other character can. *)
Theorem C22_malformed : forall ps r k, Characters is_mark ps -> Fits (concat ps ++ r) -> Malformed r ->
  (0 <= k)%Z ->
  ((k = 0 \/ k < Z.of_nat (length ps))%Z -> get_char_pos (concat ps ++ r) k = Ok (offset_of ps (Z.to_nat k))) /\
  ((k <> 0 /\ Z.of_nat (length ps) <= k)%Z -> get_char_pos (concat ps ++ r) k = Throw YstringException).
Proof. exact p_c22_malformed. Qed.
Print Assumptions C22_malformed.
(** From the end: as many characters as can be decoded; beyond them an exception,
    or undefined behaviour behind seven continuation bytes (C05). *)
Theorem C22_malformed_end : forall r m us ps k, Text m us -> Forall (fun c => is_mark c = true) us -> MalformedEnd r ->
  Forall (one_char is_mark) ps /\ Forall (starts_unmarked is_mark) ps -> Fits (r ++ m ++ concat ps) -> (k < 0)%Z ->
  ((- k <= Z.of_nat (length ps))%Z ->
     get_char_pos (r ++ m ++ concat ps) k = Ok (size (r ++ m ++ concat (firstn (length ps - Z.to_nat (- k)) ps)))) /\
  ((Z.of_nat (length ps) < - k)%Z ->
     (~ long_cont_tail r -> get_char_pos (r ++ m ++ concat ps) k = Throw YstringException) /\
     (long_cont_tail r -> get_char_pos (r ++ m ++ concat ps) k = UB)).
Proof. exact get_char_pos_bwd_bad. Qed.
Print Assumptions C22_malformed_end.
Example C22_malformed_ex : get_char_pos [x61; xcc; x80; x62; xff; x63] 1 = Ok 3 /\
  get_char_pos [x61; xcc; x80; x62; xff; x63] 2 = Throw YstringException /\
  get_char_pos [x61; xff; xcc; x80; x62] (-1) = Ok 4 /\ get_char_pos [x61; xff; xcc; x80; x62] (-2) = Throw YstringException.
Proof. repeat split; reflexivity. Qed.
Example C22_ex : get_char_pos [x61; xcc; x80; x62] (-1) = Ok 3 /\ get_char_pos [x61; xcc; x80; x62] 3 = Ok npos.
Proof. split; vm_compute; reflexivity. Qed.

(** C23 *)
Theorem C23_get_char_range : forall ps k, Characters is_mark ps -> Fits (concat ps) ->
  (forall p, (0 <= k)%Z -> nth_error ps (Z.to_nat k) = Some p ->
     get_char_range (concat ps) k = Ok (Sub (offset_of ps (Z.to_nat k)) (size p))) /\
  (forall p, (- Z.of_nat (length ps) <= k < 0)%Z -> nth_error ps (Z.to_nat (Z.of_nat (length ps) + k)) = Some p ->
     get_char_range (concat ps) k = Ok (Sub (offset_of ps (Z.to_nat (Z.of_nat (length ps) + k))) (size p))) /\
  ((Z.of_nat (length ps) <= k)%Z -> get_char_range (concat ps) k = Ok (Sub (size (concat ps)) 0)) /\
  ((k < - Z.of_nat (length ps))%Z -> get_char_range (concat ps) k = Ok (Sub 0 0)).
Proof. exact get_char_range_spec. Qed.
Print Assumptions C23_get_char_range.
(** Strings that are not valid, as in C22. *)
Theorem C23_malformed : forall ps r k, Characters is_mark ps -> Fits (concat ps ++ r) -> Malformed r -> (0 <= k)%Z ->
  (forall p, (k < Z.of_nat (length ps) - 1)%Z -> nth_error ps (Z.to_nat k) = Some p ->
     get_char_range (concat ps ++ r) k = Ok (Sub (offset_of ps (Z.to_nat k)) (size p))) /\
  ((Z.of_nat (length ps) - 1 <= k)%Z -> get_char_range (concat ps ++ r) k = Throw YstringException).
Proof. exact get_char_range_fwd_bad. Qed.
Print Assumptions C23_malformed.
Theorem C23_malformed_end : forall r m us ps k, Text m us -> Forall (fun c => is_mark c = true) us -> MalformedEnd r ->
  Forall (one_char is_mark) ps /\ Forall (starts_unmarked is_mark) ps -> Fits (r ++ m ++ concat ps) -> (k < 0)%Z ->
  (forall n p, Z.of_nat n = (Z.of_nat (length ps) + k)%Z -> nth_error ps n = Some p ->
     get_char_range (r ++ m ++ concat ps) k = Ok (Sub (size (r ++ m ++ concat (firstn n ps))) (size p))) /\
  ((Z.of_nat (length ps) < - k)%Z ->
     (~ long_cont_tail r -> get_char_range (r ++ m ++ concat ps) k = Throw YstringException) /\
     (long_cont_tail r -> get_char_range (r ++ m ++ concat ps) k = UB)).
Proof. exact get_char_range_bwd_bad. Qed.
Print Assumptions C23_malformed_end.
Example C23_malformed_ex : get_char_range [x61; xcc; x80; x62; xff; x63] 0 = Ok (Sub 0 3) /\
  get_char_range [x61; xcc; x80; x62; xff; x63] 1 = Throw YstringException /\
  get_char_range [x61; xcc; x80; x62; xff; x63] (-1) = Ok (Sub 5 1).
Proof. repeat split; reflexivity. Qed.
Example C23_ex : get_char_range [x61; xcc; x80; x62] (-2) = Ok (Sub 0 3).
Proof. vm_compute. reflexivity. Qed.

(** C27: all sign combinations but a start from the start with an end from the
    end, and both from the end in the wrong order. *)
Theorem C27_substring_partial : forall ps i j, Characters is_mark ps -> Fits (concat ps) ->
  (- 0x8000000000000000 <= i <= 0x7FFFFFFFFFFFFFFF)%Z -> (- 0x8000000000000000 <= j <= 0x7FFFFFFFFFFFFFFF)%Z ->
  (0 <= i /\ 0 <= j)%Z \/ (i < j < 0)%Z \/ (i < 0 <= j)%Z ->
  get_char_substring (concat ps) i j = Ok (concat (units_between ps i j)).
Proof. exact char_substring_ok. Qed.
Print Assumptions C27_substring_partial.
Theorem C27_reversed_refuted : forall ps i j, Characters is_mark ps -> Fits (concat ps) -> (j <= i < 0)%Z ->
  get_char_substring (concat ps) i j = Ok (concat (units_before ps i)).
Proof. exact char_substring_reversed. Qed.
Print Assumptions C27_reversed_refuted.
(** A start from the start with an end from the end: the length is too short by
    the start offset, and wraps around when that is larger. *)
Theorem C27_crossed_exact_refuted : forall ps i j, Characters is_mark ps -> Fits (concat ps) -> (j < 0 <= i)%Z ->
  get_char_substring (concat ps) i j =
  Ok (if size (concat (units_before ps i)) <=? size (concat (units_between ps i j))
      then firstn (N.to_nat (size (concat (units_between ps i j)) - size (concat (units_before ps i)))) (concat (units_after ps i i))
      else concat (units_after ps i i)).
Proof. exact p_c27_crossed_exact. Qed.
Print Assumptions C27_crossed_exact_refuted.
Theorem C27_crossed_refuted :
  get_char_substring [x61; x62; x63; x64; x65; x66] 2 (-1) = Ok [x63] (* should be [x63; x64; x65] *) /\
  get_char_substring [x61; x62; x63; x64; x65; x66] 4 (-1) = Ok [x65; x66] (* should be [x65] *).
Proof. exact p_c27_crossed. Qed.
Print Assumptions C27_crossed_refuted.
(** Strings that are not valid, as in C22: from the start only what lies before
    the last character before the malformed bytes can be reached ... *)
Theorem C27_malformed : forall ps r i j, Characters is_mark ps -> Fits (concat ps ++ r) -> Malformed r ->
  (0 <= i)%Z -> (0 <= j)%Z ->
  (- 0x8000000000000000 <= i <= 0x7FFFFFFFFFFFFFFF)%Z -> (- 0x8000000000000000 <= j <= 0x7FFFFFFFFFFFFFFF)%Z ->
  (((i = 0 \/ i < Z.of_nat (length ps)) /\ (j <= i \/ j < Z.of_nat (length ps)))%Z ->
     get_char_substring (concat ps ++ r) i j = Ok (concat (units_between ps i j))) /\
  ((i <> 0 /\ Z.of_nat (length ps) <= i \/ i < j /\ Z.of_nat (length ps) <= j)%Z ->
     get_char_substring (concat ps ++ r) i j = Throw YstringException).
Proof. exact p_c27_bad'. Qed.
Print Assumptions C27_malformed.
(** ... from the end the characters that can be decoded. *)
Theorem C27_malformed_end : forall r m us ps i j, Text m us -> Forall (fun c => is_mark c = true) us -> MalformedEnd r ->
  Forall (one_char is_mark) ps /\ Forall (starts_unmarked is_mark) ps -> Fits (r ++ m ++ concat ps) ->
  (i < j < 0)%Z -> (- 0x8000000000000000 <= i <= 0x7FFFFFFFFFFFFFFF)%Z ->
  ((- i <= Z.of_nat (length ps))%Z -> get_char_substring (r ++ m ++ concat ps) i j = Ok (concat (units_between ps i j))) /\
  ((Z.of_nat (length ps) < - i)%Z ->
     (~ long_cont_tail r -> get_char_substring (r ++ m ++ concat ps) i j = Throw YstringException) /\ (long_cont_tail r -> get_char_substring (r ++ m ++ concat ps) i j = UB)).
Proof. exact p_c27_bad_end'. Qed.
Print Assumptions C27_malformed_end.
(** Both from the end in the wrong order, as in C27_reversed_refuted. *)
Theorem C27_malformed_reversed : forall r m us ps i j, Text m us -> Forall (fun c => is_mark c = true) us -> MalformedEnd r ->
  Forall (one_char is_mark) ps /\ Forall (starts_unmarked is_mark) ps -> Fits (r ++ m ++ concat ps) ->
  (j <= i < 0)%Z ->
  ((- i <= Z.of_nat (length ps))%Z -> get_char_substring (r ++ m ++ concat ps) i j = Ok (r ++ m ++ concat (units_before ps i))) /\
  ((Z.of_nat (length ps) < - i)%Z ->
     (~ long_cont_tail r -> get_char_substring (r ++ m ++ concat ps) i j = Throw YstringException) /\ (long_cont_tail r -> get_char_substring (r ++ m ++ concat ps) i j = UB)).
Proof. exact p_c27_rev_bad'. Qed.
Print Assumptions C27_malformed_reversed.
(** From the end to the start: the valid characters at the start lie before those
    at the end. *)
Theorem C27_malformed_backwards : forall qs x r m us ps i j, Characters is_mark qs -> Malformed x ->
  Text m us -> Forall (fun c => is_mark c = true) us -> MalformedEnd r ->
  Forall (one_char is_mark) ps /\ Forall (starts_unmarked is_mark) ps ->
  concat qs ++ x = r ++ m ++ concat ps -> Fits (concat qs ++ x) -> (i < 0 <= j)%Z ->
  ((- i <= Z.of_nat (length ps) /\ (j = 0 \/ j < Z.of_nat (length qs)))%Z -> get_char_substring (concat qs ++ x) i j = Ok []) /\
  ((- i <= Z.of_nat (length ps) /\ j <> 0 /\ Z.of_nat (length qs) <= j)%Z -> get_char_substring (concat qs ++ x) i j = Throw YstringException) /\
  ((Z.of_nat (length ps) < - i)%Z ->
     (~ long_cont_tail r -> get_char_substring (concat qs ++ x) i j = Throw YstringException) /\ (long_cont_tail r -> get_char_substring (concat qs ++ x) i j = UB)).
Proof. exact p_c27_back_bad'. Qed.
Print Assumptions C27_malformed_backwards.
(** From the start to the end: [inside] is what lies between the indices, with
    the malformed bytes; as in C27_crossed_exact_refuted its length is taken for an offset. *)
Theorem C27_malformed_crossed : forall qs r m us ps i j, Characters is_mark qs ->
  Text m us -> Forall (fun c => is_mark c = true) us -> MalformedEnd r ->
  Forall (one_char is_mark) ps /\ Forall (starts_unmarked is_mark) ps ->
  Malformed (r ++ m ++ concat ps) -> Fits (concat qs ++ r ++ m ++ concat ps) -> (j < 0 <= i)%Z ->
  let s := concat qs ++ r ++ m ++ concat ps in
  let before := concat (firstn (Z.to_nat i) qs) in
  let inside := concat (skipn (Z.to_nat i) qs) ++ r ++ m ++ concat (units_before ps j) in
  let rest := concat (skipn (Z.to_nat i) qs) ++ r ++ m ++ concat ps in
  let reached := (i = 0 \/ i < Z.of_nat (length qs))%Z in
  (reached -> (- j <= Z.of_nat (length ps))%Z -> get_char_substring s i j = Ok (if size before <=? size inside then firstn (length inside - length before) rest else rest)) /\
  (~ reached -> get_char_substring s i j = Throw YstringException) /\
  (reached -> (Z.of_nat (length ps) < - j)%Z ->
     (~ long_cont_tail (concat (skipn (Z.to_nat i) qs) ++ r) -> get_char_substring s i j = Throw YstringException) /\ (long_cont_tail (concat (skipn (Z.to_nat i) qs) ++ r) -> get_char_substring s i j = UB)).
Proof. exact p_c27_across_bad'. Qed.
Print Assumptions C27_malformed_crossed.
Example C27_crossed_ex : get_char_substring [x61; x62; xff; x63; x64; x65] 1 (-1) = Ok [x62; xff; x63] (* should be [x62; xff; x63; x64] *) /\
  get_char_substring [x61; x62; xff; x63; x64; x65] (-2) 1 = Ok [] /\ get_char_substring [x61; x62; xff; x63; x64; x65] (-2) 2 = Throw YstringException /\
  get_char_substring [x61; x62; xff; x63; x64; x65] (-1) (-2) = Ok [x61; x62; xff; x63; x64] /\
  get_char_substring [x61; x62; xff; x63; x64; x65] 2 (-1) = Throw YstringException /\ get_char_substring [x61; x62; xff; x63; x64; x65] 1 (-4) = Throw YstringException.
Proof. repeat split; vm_compute; reflexivity. Qed.
Example C27_ex : get_char_substring [x61; xcc; x80; x62; x63] (-2) 2 = Ok [x62].
Proof. vm_compute. reflexivity. Qed.

(** C29 *)
Theorem C29_insert_char : forall ps k c, Characters is_mark ps -> Fits (concat ps) ->
  (Z.abs k <= Z.of_nat (length ps))%Z -> c <= 0x10FFFF ->
  exists g, encodes g c /\
    insert_char (concat ps) k c = Ok (concat (units_before ps k) ++ g ++ concat (units_after ps k k)).
Proof. exact char_insert_cp. Qed.
Print Assumptions C29_insert_char.
Theorem C29_insert_chars : forall ps k t, Characters is_mark ps -> Fits (concat ps) ->
  (Z.abs k <= Z.of_nat (length ps))%Z ->
  insert_chars (concat ps) k t = Ok (concat (units_before ps k) ++ t ++ concat (units_after ps k k)).
Proof. exact char_insert_str. Qed.
Print Assumptions C29_insert_chars.
Theorem C29_out_of_range : forall ps k c t, Characters is_mark ps -> Fits (concat ps) ->
  (Z.of_nat (length ps) < Z.abs k)%Z ->
  insert_char (concat ps) k c = Throw YstringException /\
  (t <> [] -> insert_chars (concat ps) k t = Throw YstringException) /\
  insert_chars (concat ps) k [] = Ok (concat ps).
Proof. exact char_insert_out. Qed.
Print Assumptions C29_out_of_range.
Theorem C29_no_codepoint : forall ps k c, Characters is_mark ps -> Fits (concat ps) -> 0x10FFFF < c ->
  insert_char (concat ps) k c = Throw YstringException.
Proof. exact p_c29_no_codepoint. Qed.
Print Assumptions C29_no_codepoint.
(** Strings that are not valid, as in C22. *)
Theorem C29_malformed : forall ps r k c t, Characters is_mark ps -> Fits (concat ps ++ r) -> Malformed r -> (0 <= k)%Z ->
  ((k = 0 \/ k < Z.of_nat (length ps))%Z ->
     insert_chars (concat ps ++ r) k t = Ok (concat (units_before ps k) ++ t ++ concat (units_after ps k k) ++ r) /\
     (c <= 0x10FFFF -> exists g, encodes g c /\
        insert_char (concat ps ++ r) k c = Ok (concat (units_before ps k) ++ g ++ concat (units_after ps k k) ++ r))) /\
  ((k <> 0 /\ Z.of_nat (length ps) <= k)%Z ->
     insert_chars (concat ps ++ r) k t = Throw YstringException /\ insert_char (concat ps ++ r) k c = Throw YstringException).
Proof. exact p_c29_bad. Qed.
Print Assumptions C29_malformed.
Theorem C29_malformed_end : forall r m us ps k c t, Text m us -> Forall (fun c => is_mark c = true) us -> MalformedEnd r ->
  Forall (one_char is_mark) ps /\ Forall (starts_unmarked is_mark) ps -> Fits (r ++ m ++ concat ps) -> (k < 0)%Z ->
  ((- k <= Z.of_nat (length ps))%Z ->
     insert_chars (r ++ m ++ concat ps) k t = Ok (r ++ m ++ concat (units_before ps k) ++ t ++ concat (units_after ps k k)) /\
     (c <= 0x10FFFF -> exists g, encodes g c /\
        insert_char (r ++ m ++ concat ps) k c = Ok (r ++ m ++ concat (units_before ps k) ++ g ++ concat (units_after ps k k)))) /\
  ((Z.of_nat (length ps) < - k)%Z ->
     ((~ long_cont_tail r -> insert_chars (r ++ m ++ concat ps) k t = Throw YstringException) /\ (long_cont_tail r -> insert_chars (r ++ m ++ concat ps) k t = UB)) /\
     (~ long_cont_tail r -> insert_char (r ++ m ++ concat ps) k c = Throw YstringException) /\ (long_cont_tail r -> insert_char (r ++ m ++ concat ps) k c = UB)).
Proof. exact p_c29_bad_end. Qed.
Print Assumptions C29_malformed_end.
Example C29_ex : insert_char [x61; xcc; x80; x62] 1 0x63 = Ok [x61; xcc; x80; x63; x62].
Proof. vm_compute. reflexivity. Qed.

(** C30 *)
Theorem C30_replace_codepoints_partial : forall ps i j repl, CodeUnits ps -> Fits (concat ps) ->
  (- 0x8000000000000000 < i <= 0x7FFFFFFFFFFFFFFF)%Z -> (- 0x8000000000000000 < j <= 0x7FFFFFFFFFFFFFFF)%Z ->
  (0 <= i /\ 0 <= j)%Z \/ (i < j < 0)%Z \/ (j < 0 <= i)%Z ->
  replace_codepoints (concat ps) i j repl = Ok (concat (units_before ps i) ++ repl ++ concat (units_after ps i j)).
Proof. exact cp_replace_ok. Qed.
Print Assumptions C30_replace_codepoints_partial.
Theorem C30_replace_chars_partial : forall ps i j repl, Characters is_mark ps -> Fits (concat ps) ->
  (- 0x8000000000000000 <= i <= 0x7FFFFFFFFFFFFFFF)%Z -> (- 0x8000000000000000 <= j <= 0x7FFFFFFFFFFFFFFF)%Z ->
  (0 <= i /\ 0 <= j)%Z \/ (i < j < 0)%Z \/ (i < 0 <= j)%Z ->
  replace_chars (concat ps) i j repl = Ok (concat (units_before ps i) ++ repl ++ concat (units_after ps i j)).
Proof. exact char_replace_ok. Qed.
Print Assumptions C30_replace_chars_partial.
Theorem C30_reversed_refuted : forall ps i j repl, Fits (concat ps) -> (j <= i < 0)%Z ->
  (CodeUnits ps -> (- 0x8000000000000000 < i <= 0x7FFFFFFFFFFFFFFF)%Z -> (- 0x8000000000000000 < j <= 0x7FFFFFFFFFFFFFFF)%Z ->
     replace_codepoints (concat ps) i j repl = Ok (repl ++ concat (skipn (resolve (length ps) i) ps))) /\
  (Characters is_mark ps ->
     replace_chars (concat ps) i j repl = Ok (repl ++ concat (skipn (resolve (length ps) i) ps))).
Proof. exact p_c30_reversed. Qed.
Print Assumptions C30_reversed_refuted.
Theorem C30_codepoints_crossed_refuted : forall ps i j repl, CodeUnits ps -> Fits (concat ps) ->
  (- 0x8000000000000000 < i <= 0x7FFFFFFFFFFFFFFF)%Z -> (- 0x8000000000000000 < j <= 0x7FFFFFFFFFFFFFFF)%Z -> (i < 0 <= j)%Z ->
  let e := size (concat (units_before ps i)) + N.max (size (concat (units_before ps i))) (size (concat (units_before ps j))) in
  replace_codepoints (concat ps) i j repl =
  if e <=? size (concat ps) then Ok (concat (units_before ps i) ++ repl ++ skipn (N.to_nat e) (concat ps)) else Throw StdOutOfRange.
Proof. exact p_c30_cp_crossed. Qed.
Print Assumptions C30_codepoints_crossed_refuted.
Theorem C30_chars_crossed_refuted : forall ps i j repl, Characters is_mark ps -> Fits (concat ps) -> (j < 0 <= i)%Z ->
  replace_chars (concat ps) i j repl =
  Ok (concat (units_before ps i) ++ repl ++ skipn (N.to_nat (size (concat (units_between ps i j)))) (concat ps)).
Proof. exact p_c30_chars_crossed. Qed.
Print Assumptions C30_chars_crossed_refuted.
Theorem C30_crossed_refuted :
  replace_codepoints [x61; x62; x63; x64] (-1) 4 [x78] = Throw StdOutOfRange /\
  replace_chars [x61; x62; x63; x64; x65; x66] 4 (-1) [x78] = Ok [x61; x62; x63; x64; x78; x62; x63; x64; x65; x66].
Proof. exact p_c30_crossed. Qed.
Print Assumptions C30_crossed_refuted.
(** Strings that are not valid, as in C27. *)
Theorem C30_chars_malformed : forall ps r i j t, Characters is_mark ps -> Fits (concat ps ++ r) -> Malformed r ->
  (0 <= i)%Z -> (0 <= j)%Z ->
  (- 0x8000000000000000 <= i <= 0x7FFFFFFFFFFFFFFF)%Z -> (- 0x8000000000000000 <= j <= 0x7FFFFFFFFFFFFFFF)%Z ->
  (((i = 0 \/ i < Z.of_nat (length ps)) /\ (j <= i \/ j < Z.of_nat (length ps)))%Z ->
     replace_chars (concat ps ++ r) i j t = Ok (concat (units_before ps i) ++ t ++ concat (units_after ps i j) ++ r)) /\
  ((i <> 0 /\ Z.of_nat (length ps) <= i \/ i < j /\ Z.of_nat (length ps) <= j)%Z ->
     replace_chars (concat ps ++ r) i j t = Throw YstringException).
Proof. exact p_c30_bad'. Qed.
Print Assumptions C30_chars_malformed.
Theorem C30_chars_malformed_end : forall r m us ps i j t, Text m us -> Forall (fun c => is_mark c = true) us -> MalformedEnd r ->
  Forall (one_char is_mark) ps /\ Forall (starts_unmarked is_mark) ps -> Fits (r ++ m ++ concat ps) ->
  (i < j < 0)%Z -> (- 0x8000000000000000 <= i <= 0x7FFFFFFFFFFFFFFF)%Z ->
  ((- i <= Z.of_nat (length ps))%Z ->
     replace_chars (r ++ m ++ concat ps) i j t = Ok (r ++ m ++ concat (units_before ps i) ++ t ++ concat (units_after ps i j))) /\
  ((Z.of_nat (length ps) < - i)%Z ->
     (~ long_cont_tail r -> replace_chars (r ++ m ++ concat ps) i j t = Throw YstringException) /\ (long_cont_tail r -> replace_chars (r ++ m ++ concat ps) i j t = UB)).
Proof. exact p_c30_bad_end'. Qed.
Print Assumptions C30_chars_malformed_end.
(** Both from the end in the wrong order, as in C30_reversed_refuted. *)
Theorem C30_chars_malformed_reversed : forall r m us ps i j t, Text m us -> Forall (fun c => is_mark c = true) us -> MalformedEnd r ->
  Forall (one_char is_mark) ps /\ Forall (starts_unmarked is_mark) ps -> Fits (r ++ m ++ concat ps) ->
  (j <= i < 0)%Z ->
  ((- i <= Z.of_nat (length ps))%Z -> replace_chars (r ++ m ++ concat ps) i j t = Ok (t ++ concat (units_after ps i i))) /\
  ((Z.of_nat (length ps) < - i)%Z ->
     (~ long_cont_tail r -> replace_chars (r ++ m ++ concat ps) i j t = Throw YstringException) /\ (long_cont_tail r -> replace_chars (r ++ m ++ concat ps) i j t = UB)).
Proof. exact p_c30_rev_bad'. Qed.
Print Assumptions C30_chars_malformed_reversed.
(** From the end to the start: the valid characters at the start lie before those
    at the end. *)
Theorem C30_chars_malformed_backwards : forall qs x r m us ps i j t, Characters is_mark qs -> Malformed x ->
  Text m us -> Forall (fun c => is_mark c = true) us -> MalformedEnd r ->
  Forall (one_char is_mark) ps /\ Forall (starts_unmarked is_mark) ps ->
  concat qs ++ x = r ++ m ++ concat ps -> Fits (concat qs ++ x) -> (i < 0 <= j)%Z ->
  ((- i <= Z.of_nat (length ps) /\ (j = 0 \/ j < Z.of_nat (length qs)))%Z -> replace_chars (concat qs ++ x) i j t = Ok (r ++ m ++ concat (units_before ps i) ++ t ++ concat (units_after ps i i))) /\
  ((- i <= Z.of_nat (length ps) /\ j <> 0 /\ Z.of_nat (length qs) <= j)%Z -> replace_chars (concat qs ++ x) i j t = Throw YstringException) /\
  ((Z.of_nat (length ps) < - i)%Z ->
     (~ long_cont_tail r -> replace_chars (concat qs ++ x) i j t = Throw YstringException) /\ (long_cont_tail r -> replace_chars (concat qs ++ x) i j t = UB)).
Proof. exact p_c30_back_bad'. Qed.
Print Assumptions C30_chars_malformed_backwards.
(** From the start to the end: [inside] is what lies between the indices, with
    the malformed bytes; as in C30_chars_crossed_refuted its length is taken for an offset. *)
Theorem C30_chars_malformed_crossed : forall qs r m us ps i j t, Characters is_mark qs ->
  Text m us -> Forall (fun c => is_mark c = true) us -> MalformedEnd r ->
  Forall (one_char is_mark) ps /\ Forall (starts_unmarked is_mark) ps ->
  Malformed (r ++ m ++ concat ps) -> Fits (concat qs ++ r ++ m ++ concat ps) -> (j < 0 <= i)%Z ->
  let s := concat qs ++ r ++ m ++ concat ps in
  let before := concat (firstn (Z.to_nat i) qs) in
  let inside := concat (skipn (Z.to_nat i) qs) ++ r ++ m ++ concat (units_before ps j) in
  let reached := (i = 0 \/ i < Z.of_nat (length qs))%Z in
  (reached -> (- j <= Z.of_nat (length ps))%Z -> replace_chars s i j t = Ok (before ++ t ++ skipn (length inside) s)) /\
  (~ reached -> replace_chars s i j t = Throw YstringException) /\
  (reached -> (Z.of_nat (length ps) < - j)%Z ->
     (~ long_cont_tail (concat (skipn (Z.to_nat i) qs) ++ r) -> replace_chars s i j t = Throw YstringException) /\ (long_cont_tail (concat (skipn (Z.to_nat i) qs) ++ r) -> replace_chars s i j t = UB)).
Proof. exact p_c30_across_bad'. Qed.
Print Assumptions C30_chars_malformed_crossed.
Example C30_ex : replace_codepoints [x61; x62; x63; x64] 1 (-1) [x78] = Ok [x61; x78; x64].
Proof. reflexivity. Qed.

(** C35 *)
Theorem C35_reverse : forall ps, Characters is_mark ps -> Fits (concat ps) -> reverse (concat ps) = Ok (concat (rev ps)).
Proof. exact reverse_spec. Qed.
Print Assumptions C35_reverse.
Theorem C35_twice : forall ps, Characters is_mark ps -> Fits (concat ps) ->
  exists t, reverse (concat ps) = Ok t /\
    (reverse t = Ok (concat ps) <-> ((length ps <= 1)%nat \/ Forall (starts_unmarked is_mark) ps)).
Proof. exact reverse_twice_iff. Qed.
Print Assumptions C35_twice.
(** Strings that are not valid: reverse decodes from the end, back to the last
    malformed bytes. *)
Theorem C35_malformed : forall r u cs, Text u cs -> MalformedEnd r -> Fits (r ++ u) ->
  (~ long_cont_tail r -> reverse (r ++ u) = Throw YstringException) /\ (long_cont_tail r -> reverse (r ++ u) = UB).
Proof. exact reverse_bad. Qed.
Print Assumptions C35_malformed.
Example C35_malformed_ex : MalformedEnd [x61; xe2; x82] /\ reverse [x61; xe2; x82; x62] = Throw YstringException /\
  reverse [x61; x80; x80; x80; x80; x80; x80; x80; x62] = UB.
Proof.
  split; [|split; reflexivity]. split; [discriminate|]. intros g c t Hg E.
  destruct Hg; repeat (destruct t as [|? t]; try discriminate E); injection E as; subst; unfold cont, u8 in *; cbn in *; try lia; try discriminate.
Qed.
(** A text that starts with a mark is not restored. *)
Theorem C35_twice_example : reverse [xcc; x80; x61] = Ok [x61; xcc; x80] /\ reverse [x61; xcc; x80] = Ok [x61; xcc; x80].
Proof. exact p_c35_refuted. Qed.
Print Assumptions C35_twice_example.
Example C35_ex : reverse [x61; xcc; x80; x62] = Ok [x62; x61; xcc; x80].
Proof. vm_compute. reflexivity. Qed.
(** Malformed text by characters: "abc" FF "de", and the same from the end. *)
Example C27_malformed_ex : get_char_substring [x61; x62; x63; xff; x64; x65] 0 2 = Ok [x61; x62] /\
  get_char_substring [x61; x62; x63; xff; x64; x65] 1 3 = Throw YstringException /\
  get_char_substring [x61; x62; x63; xff; x64; x65] (-2) (-1) = Ok [x64] /\
  insert_char [x61; x62; x63; xff; x64; x65] 2 0x7A = Ok [x61; x62; x7a; x63; xff; x64; x65] /\
  insert_char [x61; x62; x63; xff; x64; x65] 3 0x7A = Throw YstringException /\
  replace_chars [x61; x62; x63; xff; x64; x65] (-2) (-1) [x7a] = Ok [x61; x62; x63; xff; x7a; x65].
Proof. repeat split; vm_compute; reflexivity. Qed.
