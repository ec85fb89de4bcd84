(** C95, C96: functions that answer the same question agree; repeated searches. *)
From Verif Require Import Base Spec.Utf8Spec Spec.Strings Spec.Slices Spec.Newline Spec.Split Spec.CaseFold Spec.Visits
  Model.Decode Model.Encode Model.Subrange Model.Search Model.Split Model.CharClass Model.Chars Model.ConvertCase Model.CaseInsensitive
  Proofs.VisitLemmas Proofs.AgreeLemmas.

(** C95.  Any string, valid or not, with the same exceptions: *)
Theorem C95_contains : forall s c, contains s c = omap (fun r => sub_bool (fst r)) (find_first_of s [c] 0).
Proof. exact p_c95_contains. Qed.
Print Assumptions C95_contains.
Theorem C95_starts_with : forall s p, p <> [] ->
  (starts_with s p = Ok true <-> find_first s p 0 = Ok (Sub 0 (size p))).
Proof. exact p_c95_prefix. Qed.
Print Assumptions C95_starts_with.
Theorem C95_ends_with : forall s p, p <> [] -> Fits s ->
  (ends_with s p = Ok true <-> exists o, o + size p = size s /\ find_last s p npos = Ok (Sub o (size p))).
Proof. exact p_c95_suffix. Qed.
Print Assumptions C95_ends_with.
Theorem C95_first_and_last : forall s p, p <> [] -> Fits s ->
  exists a b, find_first s p 0 = Ok a /\ find_last s p npos = Ok b /\ sub_bool a = sub_bool b /\
    (sub_bool a = true -> sub_start a <= sub_start b).
Proof. exact p_c95_first_last. Qed.
Print Assumptions C95_first_and_last.

(** A code point, and the string that encodes it, in encoded text. *)
Theorem C95_search_code_point : forall cs c, Forall (fun d => d <= 0x10FFFF) cs -> c <= 0x10FFFF -> exists a x b,
  find_first_of (from_utf32 cs) [c] 0 = Ok (a, x) /\ find_first (from_utf32 cs) (from_utf32 [c]) 0 = Ok b /\
  sub_bool a = sub_bool b /\ (sub_bool a = true -> a = b /\ x = c).
Proof. exact p_c95_one_first. Qed.
Print Assumptions C95_search_code_point.
Theorem C95_search_last_code_point : forall cs c, Forall (fun d => d <= 0x10FFFF) cs -> c <= 0x10FFFF -> Fits (from_utf32 cs) ->
  exists a x b,
  find_last_of (from_utf32 cs) [c] npos = Ok (a, x) /\ find_last (from_utf32 cs) (from_utf32 [c]) npos = Ok b /\
  sub_bool a = sub_bool b /\ (sub_bool a = true -> a = b /\ x = c).
Proof. exact p_c95_one_last. Qed.
Print Assumptions C95_search_last_code_point.
Theorem C95_split_code_point : forall cs c n ign, Forall (fun d => d <= 0x10FFFF) cs -> c <= 0x10FFFF -> Fits (from_utf32 cs) ->
  split_chars (from_utf32 cs) [c] n ign = split_sep (from_utf32 cs) (from_utf32 [c]) n ign.
Proof. exact p_c95_split. Qed.
Print Assumptions C95_split_code_point.
Theorem C95_insert_code_point : forall s k c, Fits s -> size s < 0xFFFFFFFF \/ (exists cs, Text s cs) ->
  (- 0x8000000000000000 < k <= 0x7FFFFFFFFFFFFFFF)%Z -> c <= 0x10FFFF ->
  insert_codepoint s k c = insert_codepoints s k (from_utf32 [c]).
Proof. exact (fun s k c F H => p_c95_insert_cp s k c (conj F H)). Qed.
Print Assumptions C95_insert_code_point.
Theorem C95_insert_char : forall s cs k c, Text s cs -> Fits s -> c <= 0x10FFFF ->
  insert_char s k c = insert_chars s k (from_utf32 [c]).
Proof. exact p_c95_insert_char. Qed.
Print Assumptions C95_insert_char.

(** Inserting is replacing nothing. *)
Theorem C95_insert_replace : forall s k t n, Fits s -> size s < 0xFFFFFFFF \/ (exists cs, Text s cs) ->
  count_codepoints s = Ok n -> (0 <= k <= Z.of_N n)%Z ->
  insert_codepoints s k t = replace_codepoints s k k t.
Proof. exact (fun s k t n F H => p_c95_replace_cp s k t n (conj F H)). Qed.
Print Assumptions C95_insert_replace.
Theorem C95_insert_replace_chars : forall s cs k t n, Text s cs -> Fits s -> count_chars s = Ok n -> (0 <= k <= Z.of_N n)%Z ->
  insert_chars s k t = replace_chars s k k t.
Proof. exact p_c95_replace_char. Qed.
Print Assumptions C95_insert_replace_chars.

(** The ways to get at one code point, or one character. *)
Theorem C95_get_codepoint : forall s k r c, Fits s -> size s < 0xFFFFFFFF \/ (exists cs, Text s cs) ->
  (- 0x8000000000000000 < k < 0x7FFFFFFFFFFFFFFF)%Z ->
  get_codepoint s k = Ok (r, c) -> sub_bool r = true ->
  get_codepoint_pos s k = Ok (sub_start r) /\
  exists g, uchar g c /\ substr s (sub_start r) (sub_length r) = Ok g /\
    (k <> -1 -> get_codepoint_substring s k (k + 1) = Ok g)%Z.
Proof. exact (fun s k r c F H => p_c95_get_codepoint s k r c (conj F H)). Qed.
Print Assumptions C95_get_codepoint.
Theorem C95_get_char : forall s cs k r, Text s cs -> Fits s -> (- 0x8000000000000000 <= k < 0x7FFFFFFFFFFFFFFF)%Z ->
  get_char_range s k = Ok r -> sub_bool r = true ->
  get_char_pos s k = Ok (sub_start r) /\ get_next_char_range s (sub_start r) = Ok r /\ get_prev_char_range s (sub_end r) = Ok r /\
  (k <> -1 -> get_char_substring s k (k + 1) = substr s (sub_start r) (sub_length r))%Z.
Proof. exact p_c95_get_char. Qed.
Print Assumptions C95_get_char.
Theorem C95_counts : forall s cs, Text s cs -> Fits s ->
  exists n m, count_chars s = Ok n /\ count_codepoints s = Ok m /\ n <= m /\ m <= size s.
Proof. exact p_c95_counts. Qed.
Print Assumptions C95_counts.
Example C95_ex : split_chars [x61; xc3; xa9; x62] [0xE9] 5 false = Ok [[x61]; [x62]] /\ split_sep [x61; xc3; xa9; x62] [xc3; xa9] 5 false = Ok [[x61]; [x62]] /\
  get_codepoint [x61; xc3; xa9; x62] (-2) = Ok (Sub 1 2, 0xE9) /\ get_codepoint_pos [x61; xc3; xa9; x62] (-2) = Ok 1 /\
  contains [x61; xff] 0x62 = Throw YstringException.
Proof. repeat split; vm_compute; reflexivity. Qed.
(** Why k = -1 is excluded: the substring from -1 to 0 is not the last code point. *)
Example C95_last : get_codepoint_substring [x61; x62] (-1) 0 = Ok [x62] /\ get_codepoint_substring [x61; x62] (-2) (-1) = Ok [x61] /\
  get_char_substring [x61; x62] (-1) 0 = Ok [].
Proof. repeat split; vm_compute; reflexivity. Qed.

(** C96.  [Visits search next o rs] (Spec/Visits.v): the ranges that search
    after search returns are [rs]. *)
Theorem C96_find_first : forall s p, p <> [] -> Fits s -> exists cuts rest,
  Cuts (first_sep p) s cuts rest /\ (forall i, ~ occurs_at p rest i) /\
  Visits (find_first s p) sub_end 0 (cut_ranges 0 cuts) /\ split_sep s p SIZE_MAX false = Ok (map fst cuts ++ [rest]).
Proof. exact p_c96_sep. Qed.
Print Assumptions C96_find_first.
Theorem C96_where : forall f s cs, Text s cs -> Fits s -> exists cuts rest,
  Cuts (first_match f) s cuts rest /\ no_match f rest /\
  Visits (fun o => omap fst (find_first_where s f o)) sub_end 0 (cut_ranges 0 cuts) /\
  Visits (fun o => omap fst (find_last_where s f o)) sub_start npos (rev (cut_ranges 0 cuts)).
Proof. exact p_c96_where. Qed.
Print Assumptions C96_where.
Theorem C96_chars : forall chars s cs, Text s cs -> Fits s -> exists cuts rest,
  Cuts (first_char chars) s cuts rest /\ no_char chars rest /\
  Visits (fun o => omap fst (find_first_of s chars o)) sub_end 0 (cut_ranges 0 cuts) /\
  Visits (fun o => omap fst (find_last_of s chars o)) sub_start npos (rev (cut_ranges 0 cuts)) /\
  split_chars s chars SIZE_MAX false = Ok (map fst cuts ++ [rest]).
Proof. exact p_c96_chars. Qed.
Print Assumptions C96_chars.
Theorem C96_newlines : forall extra after, followed_by after extra -> forall s cs, Text s cs -> Fits s -> exists cuts rest,
  Cuts (first_line_end_of extra) s cuts rest /\ no_line_end_of extra rest /\
  Visits (find_first_newline after s) sub_end 0 (cut_ranges 0 cuts) /\
  Visits (find_last_newline after s) sub_start npos (rev (cut_ranges 0 cuts)) /\
  split_lines after s SIZE_MAX false = Ok (map fst cuts ++ [rest]).
Proof. exact p_c96_lines. Qed.
Print Assumptions C96_newlines.
Theorem C96_ignoring_case : forall ps sep s cs, ps <> [] -> Text sep ps -> Text s cs -> Fits s -> exists cuts rest,
  Cuts (first_ci ps) s cuts rest /\ no_ci ps rest /\
  Visits (ci_find_first s sep) sub_end 0 (cut_ranges 0 cuts) /\ ci_split_sep s sep SIZE_MAX false = Ok (map fst cuts ++ [rest]).
Proof. exact p_c96_ci_sep. Qed.
Print Assumptions C96_ignoring_case.
Theorem C96_ignoring_case_chars : forall chars s cs, Forall (fun d => d < 0x100000000) chars -> Text s cs -> Fits s -> exists cuts rest,
  Cuts (first_ci_char chars) s cuts rest /\ no_ci_char chars rest /\
  Visits (fun o => omap fst (ci_find_first_of s chars o)) sub_end 0 (cut_ranges 0 cuts) /\
  Visits (fun o => omap fst (ci_find_last_of s chars o)) sub_start npos (rev (cut_ranges 0 cuts)) /\
  ci_split_chars s chars SIZE_MAX false = Ok (map fst cuts ++ [rest]).
Proof. exact p_c96_ci_chars. Qed.
Print Assumptions C96_ignoring_case_chars.
Theorem C96_characters : forall ps, Characters is_mark ps -> Fits (concat ps) ->
  Visits (get_next_char_range (concat ps)) sub_end 0 (unit_ranges 0 ps) /\
  Visits (get_prev_char_range (concat ps)) sub_start (size (concat ps)) (rev (unit_ranges 0 ps)).
Proof. exact p_c96_characters. Qed.
Print Assumptions C96_characters.
Theorem C96_pop : forall s cs, Text s cs -> Pops pop_utf8_codepoint s cs /\ Pops pop_last_utf8_codepoint s (rev cs).
Proof. exact p_c96_pop. Qed.
Print Assumptions C96_pop.
(** There is only one such list of ranges, or code points. *)
Theorem C96_unique : forall search next o l, Visits search next o l -> forall l', Visits search next o l' -> l = l'.
Proof. exact visits_fun. Qed.
Print Assumptions C96_unique.
Theorem C96_unique_pops : forall pop s l, Pops pop s l -> forall l', Pops pop s l' -> l = l'.
Proof. exact pops_fun. Qed.
Print Assumptions C96_unique_pops.
Example C96_ex : Visits (find_first [x61; x61; x61; x62; x61; x61] [x61; x61]) sub_end 0 [Sub 0 2; Sub 4 2].
Proof.
  eapply visits_step; [vm_compute; reflexivity|discriminate|]. eapply visits_step; [vm_compute; reflexivity|discriminate|].
  eapply visits_end; [vm_compute; reflexivity|reflexivity].
Qed.
