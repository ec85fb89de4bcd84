(** C78-C79: searching respects code point boundaries; valid text in, valid text out. *)
From Verif Require Import Base Spec.Utf8Spec Spec.Strings Spec.WellFormed Spec.Escape
  Model.Decode Model.Encode Model.Subrange Model.Search Model.Split Model.CharClass Model.ConvertCase Model.Chars Model.CaseInsensitive
  Model.Escape Model.Unescape Model.Normalize Proofs.SyncLemmas Proofs.SyncUtf32 Proofs.ClosureMore.
From Verif Require Import Proofs.CodepointLemmas Proofs.EncodeLemmas.

(** C78.  In valid text a valid pattern is found only at code point boundaries; ... *)
Theorem C78_first : forall s cs p ps o i n, Text s cs -> Text p ps -> p <> [] -> o <= size s ->
  find_first s p o = Ok (Sub i n) -> n <> 0 ->
  exists u v us vs, s = u ++ p ++ v /\ size u = i /\ n = size p /\ Text u us /\ Text v vs /\ cs = us ++ ps ++ vs.
Proof. exact p_c78_first. Qed.
Print Assumptions C78_first.
Theorem C78_last : forall s cs p ps o i n, Text s cs -> Text p ps -> p <> [] -> 
  find_last s p o = Ok (Sub i n) -> n <> 0 ->
  exists u v us vs, s = u ++ p ++ v /\ size u = i /\ n = size p /\ Text u us /\ Text v vs /\ cs = us ++ ps ++ vs.
Proof. exact p_c78_last. Qed.
Print Assumptions C78_last.
(** ... searching encoded text is searching the sequence of code points; ... *)
Theorem C78_codepoints_first : forall cs ps, Forall (fun c => c <= 0x10FFFF) cs -> Forall (fun c => c <= 0x10FFFF) ps -> ps <> [] ->
  (exists us vs, cs = us ++ ps ++ vs /\ (forall us' vs', cs = us' ++ ps ++ vs' -> (length us <= length us')%nat) /\
     find_first (from_utf32 cs) (from_utf32 ps) 0 = Ok (Sub (size (from_utf32 us)) (size (from_utf32 ps))))
  \/ ((forall us vs, cs <> us ++ ps ++ vs) /\ find_first (from_utf32 cs) (from_utf32 ps) 0 = Ok (Sub (size (from_utf32 cs)) 0)).
Proof. exact p_c78_cp_first. Qed.
Print Assumptions C78_codepoints_first.
Theorem C78_codepoints_last : forall cs ps, Forall (fun c => c <= 0x10FFFF) cs -> Forall (fun c => c <= 0x10FFFF) ps -> ps <> [] ->
  (exists us vs, cs = us ++ ps ++ vs /\ (forall us' vs', cs = us' ++ ps ++ vs' -> (length us' <= length us)%nat) /\
     find_last (from_utf32 cs) (from_utf32 ps) (size (from_utf32 cs)) = Ok (Sub (size (from_utf32 us)) (size (from_utf32 ps))))
  \/ ((forall us vs, cs <> us ++ ps ++ vs) /\ find_last (from_utf32 cs) (from_utf32 ps) (size (from_utf32 cs)) = Ok (Sub 0 0)).
Proof. exact p_c78_cp_last. Qed.
Print Assumptions C78_codepoints_last.
(** ... and so is looking for a prefix or suffix. *)
Theorem C78_prefix_suffix : forall cs ps, Forall (fun c => c <= 0x10FFFF) cs -> Forall (fun c => c <= 0x10FFFF) ps -> Fits (from_utf32 cs) ->
  (starts_with (from_utf32 cs) (from_utf32 ps) = Ok true <-> exists ds, cs = ps ++ ds) /\
  (ends_with (from_utf32 cs) (from_utf32 ps) = Ok true <-> exists ds, cs = ds ++ ps).
Proof. exact p_c78_fixes. Qed.
Print Assumptions C78_prefix_suffix.
Example C78_ex : find_first (from_utf32 [0x41; 0xE6; 0x42; 0xE6]) (from_utf32 [0xE6; 0x42]) 0 = Ok (Sub 1 3) /\
  Text [xc3; xa6; x42] [0xE6; 0x42] /\ find_last [x41; xc3; xa6; x42] [x42] 4 = Ok (Sub 3 1).
Proof. split; [reflexivity|]. split; [|reflexivity]. apply (from_utf32_Text [0xE6; 0x42]). repeat constructor; vm_compute; discriminate. Qed.
(** The hypothesis on the pattern is needed: a lone continuation byte is found inside a code point. *)
Example C78_needs_valid : find_first [xc3; xa6] [xa6] 0 = Ok (Sub 1 1).
Proof. reflexivity. Qed.

(** C79.  [V] is either notion of validity: the library's test or RFC 3629. *)
Theorem C79_case : forall V s r, validity V -> V s ->
  to_lower_str s = Ok r \/ to_upper_str s = Ok r \/ to_title_str s = Ok r -> V r.
Proof. exact p_c79_case. Qed.
Print Assumptions C79_case.
Theorem C79_trim : forall V s chars r, validity V -> V s -> Fits s ->
  trim s chars = Ok r \/ trim_start s chars = Ok r \/ trim_end s chars = Ok r -> V r.
Proof. exact (fun V s chars r => p_c79_trim V (u32_contains chars) s r). Qed.
Print Assumptions C79_trim.
Theorem C79_trim_where : forall V p s r, validity V -> V s -> Fits s ->
  trim_where s p = Ok r \/ trim_start_where s p = Ok r \/ trim_end_where s p = Ok r -> V r.
Proof. exact p_c79_trim. Qed.
Print Assumptions C79_trim_where.
Theorem C79_reverse : forall V s r, validity V -> V s -> Fits s -> reverse s = Ok r -> V r.
Proof. exact p_c79_reverse. Qed.
Print Assumptions C79_reverse.
Theorem C79_split : forall V s sep n ign parts, validity V -> V s -> is_valid_utf8 sep = Ok true -> Fits s ->
  split_sep s sep n ign = Ok parts \/ ci_split_sep s sep n ign = Ok parts -> Forall V parts.
Proof. exact p_c79_split. Qed.
Print Assumptions C79_split.
Theorem C79_split_chars : forall V s chars n ign parts, validity V -> V s -> Forall (fun d => d < 0x100000000) chars -> Fits s ->
  split_chars s chars n ign = Ok parts \/ ci_split_chars s chars n ign = Ok parts -> Forall V parts.
Proof. exact p_c79_split_chars. Qed.
Print Assumptions C79_split_chars.
(** Whatever lies behind the array of line ends (C20). *)
Theorem C79_split_lines : forall V after s n ign parts, validity V -> V s -> Fits s ->
  split_lines after s n ign = Ok parts -> Forall V parts.
Proof. exact p_c79_split_lines. Qed.
Print Assumptions C79_split_lines.
Theorem C79_join : forall V l d, validity V -> Forall V l -> V d -> V (join l d).
Proof. exact p_c79_join. Qed.
Print Assumptions C79_join.
Theorem C79_append : forall V s c r, validity V -> V s -> V (from_utf32 [c]) -> append s c = Ok r -> V r.
Proof. exact p_c79_append. Qed.
Print Assumptions C79_append.
Theorem C79_replace : forall V s from to m r, validity V -> V s -> is_valid_utf8 from = Ok true -> V to -> Fits s ->
  replace s from to m = Ok r \/ ci_replace s from to m = Ok r -> V r.
Proof. exact p_c79_replace. Qed.
Print Assumptions C79_replace.
Theorem C79_replace_codepoint : forall V s a b m r, validity V -> V s -> V (from_utf32 [b]) -> Fits s ->
  replace_codepoint s a b m = Ok r -> V r.
Proof. exact p_c79_replace_codepoint. Qed.
Print Assumptions C79_replace_codepoint.
Theorem C79_insert : forall V s k c t r, validity V -> V s -> V t -> c <= 0x10FFFF -> V (from_utf32 [c]) -> Fits s -> (PTRDIFF_MIN < k <= PTRDIFF_MAX)%Z ->
  insert_codepoint s k c = Ok r \/ insert_codepoints s k t = Ok r \/ insert_char s k c = Ok r \/ insert_chars s k t = Ok r -> V r.
Proof. exact p_c79_insert. Qed.
Print Assumptions C79_insert.
(** Substrings by index; missing: the ranges of C27 whose two indices have different signs, ... *)
Theorem C79_substring_partial : forall V s i j r, validity V -> V s -> Fits s -> (PTRDIFF_MIN < i <= PTRDIFF_MAX)%Z -> (PTRDIFF_MIN < j <= PTRDIFF_MAX)%Z ->
  (~ (i < 0 <= j)%Z /\ get_codepoint_substring s i j = Ok r) \/ (~ (j < 0 <= i)%Z /\ get_char_substring s i j = Ok r) -> V r.
Proof. exact p_c79_substring. Qed.
Print Assumptions C79_substring_partial.
Theorem C79_replace_range_partial : forall V s i j t r, validity V -> V s -> V t -> Fits s -> (PTRDIFF_MIN < i <= PTRDIFF_MAX)%Z -> (PTRDIFF_MIN < j <= PTRDIFF_MAX)%Z ->
  (~ (i < 0 <= j)%Z /\ replace_codepoints s i j t = Ok r) \/ (~ (j < 0 <= i)%Z /\ replace_chars s i j t = Ok r) -> V r.
Proof. exact p_c79_replace_range. Qed.
Print Assumptions C79_replace_range_partial.
(** ... for which a code point can be cut in two. *)
Theorem C79_substring_refuted : get_codepoint_substring [x61; xc3; xa6; xc3; xa6] (-2) 1 = Ok [xc3] /\ get_char_substring [x61; xc3; xa6; x62] 1 (-1) = Ok [xc3] /\
  replace_codepoints [x61; xc3; xa6; xc3; xa6] (-2) 1 [] = Ok [x61; xa6; xc3; xa6] /\ replace_chars [x61; xc3; xa6; x62] 1 (-1) [] = Ok [x61; xa6; x62] /\
  is_valid_utf8 [xc3] = Ok false /\ is_valid_utf8 [x61; xa6; xc3; xa6] = Ok false /\ is_valid_utf8 [x61; xa6; x62] = Ok false.
Proof. repeat split; vm_compute; reflexivity. Qed.
Print Assumptions C79_substring_refuted.
Theorem C79_escape : forall V s r, validity V -> V s -> Fits s -> escape_json s = Ok r -> V r.
Proof. exact p_c79_escape. Qed.
Print Assumptions C79_escape.
Theorem C79_unescape : forall s t, is_valid_utf8 s = Ok true -> Fits s -> unescape s = Ok t -> is_valid_utf8 t = Ok true.
Proof. exact p_c79_unescape. Qed.
Print Assumptions C79_unescape.
(** With RFC 3629 validity only if no escape sequence denotes a surrogate: *)
Theorem C79_unescape_rfc_partial : forall s t, rfc3629_valid s -> Fits s ->
  Reads (fun e q => handled e q /\ forall v, Denotes e q v -> ~ (0xD800 <= v <= 0xDFFF)) s [] t -> unescape s = Ok t /\ rfc3629_valid t.
Proof. exact p_c79_unescape_rfc. Qed.
Print Assumptions C79_unescape_rfc_partial.
Theorem C79_unescape_rfc_refuted : rfc3629_valid [x5c; x75; x44; x38; x30; x30] /\
  unescape [x5c; x75; x44; x38; x30; x30] = Ok [xed; xa0; x80] /\ ~ rfc3629_valid [xed; xa0; x80].
Proof. exact p_c79_surrogate. Qed.
Print Assumptions C79_unescape_rfc_refuted.
Theorem C79_normalize : forall V inner adjacent s r, validity V -> V s ->
  to_decomposed inner s = Ok r \/ to_composed adjacent s = Ok r -> V r.
Proof. exact p_c79_normalize. Qed.
Print Assumptions C79_normalize.
Theorem C79_from_utf32 : forall cs, is_valid_utf8 (from_utf32 cs) = Ok true /\ (Forall scalar cs -> rfc3629_valid (from_utf32 cs)).
Proof. exact p_c79_from_utf32. Qed.
Print Assumptions C79_from_utf32.
Example C79_ex : validity (fun s => is_valid_utf8 s = Ok true) /\ validity rfc3629_valid /\
  is_valid_utf8 [x41; xe2; x82; xac] = Ok true /\ rfc3629_valid [x41; xe2; x82; xac] /\
  reverse [x41; xe2; x82; xac] = Ok [xe2; x82; xac; x41].
Proof.
  split; [constructor|]. split; [constructor|]. split; [reflexivity|]. split; [|vm_compute; reflexivity].
  exact (proj2 (p_c79_from_utf32 [0x41; 0x20AC]) ltac:(repeat constructor; try (vm_compute; discriminate); intros [H K]; revert H K; vm_compute; congruence)).
Qed.
