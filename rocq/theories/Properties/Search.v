(** C13-C20, C41, C42: searching, trimming, joining. *)
From Verif Require Import Base Spec.Utf8Spec Spec.Strings Spec.Newline Model.Decode Model.Encode Model.Subrange Model.Search Model.Split
  Proofs.SearchLemmas Proofs.NewlineLemmas Proofs.StrayLemmas Proofs.BackwardLemmas.

(** C13 *)
Theorem C13_starts_with : forall s p, exists b, starts_with s p = Ok b /\ (b = true <-> exists t, s = p ++ t).
Proof. exact starts_with_spec. Qed.
Print Assumptions C13_starts_with.
Theorem C13_ends_with : forall s p, Fits s -> exists b, ends_with s p = Ok b /\ (b = true <-> exists t, s = t ++ p).
Proof. exact ends_with_spec. Qed.
Print Assumptions C13_ends_with.
Example C13_ex : Fits [x41; x42] /\ ends_with [x41; x42] [x42] = Ok true.
Proof. split; reflexivity. Qed.

(** C14 *)
Theorem C14_find_first : forall s p o, p <> [] -> (o <= length s)%nat ->
  (exists i, (o <= i)%nat /\ occurs_at p s i /\ (forall j, (o <= j < i)%nat -> ~ occurs_at p s j) /\
     find_first s p (N.of_nat o) = Ok (Sub (N.of_nat i) (size p)))
  \/ ((forall j, (o <= j)%nat -> ~ occurs_at p s j) /\ find_first s p (N.of_nat o) = Ok (Sub (size s) 0)).
Proof. exact find_first_spec. Qed.
Print Assumptions C14_find_first.
Example C14_ex : find_first [x41; x42; x41; x42] [x41; x42] 1 = Ok (Sub 2 2).
Proof. reflexivity. Qed.

(** C15 *)
Theorem C15_find_last : forall s p o, p <> [] ->
  let within i := N.of_nat i + size p <= N.min o (size s) in
  (exists i, occurs_at p s i /\ within i /\ (forall j, (i < j)%nat -> within j -> ~ occurs_at p s j) /\
     find_last s p o = Ok (Sub (N.of_nat i) (size p)))
  \/ ((forall j, within j -> ~ occurs_at p s j) /\ find_last s p o = Ok (Sub 0 0)).
Proof. exact find_last_spec. Qed.
Print Assumptions C15_find_last.
Example C15_ex : find_last [x41; x42; x41; x42] [x41; x42] 3 = Ok (Sub 0 2).
Proof. reflexivity. Qed.

(** C16: the offset is [size pre].  The three hypotheses cover every string. *)
Theorem C16_find_first_where : forall pred pre,
  (forall u us g c v, Text u us -> Forall (fun x => pred x = false) us -> uchar g c -> pred c = true ->
     find_first_where (pre ++ u ++ g ++ v) pred (size pre) = Ok (Sub (size (pre ++ u)) (size g), c)) /\
  (forall u us, Text u us -> Forall (fun x => pred x = false) us ->
     find_first_where (pre ++ u) pred (size pre) = Ok (Sub npos 0, INVALID_CHAR)) /\
  (forall u us r, Text u us -> Forall (fun x => pred x = false) us -> Malformed r ->
     find_first_where (pre ++ u ++ r) pred (size pre) = Throw YstringException).
Proof. exact p_c16. Qed.
Print Assumptions C16_find_first_where.
Theorem C16_cases_exhaustive : forall (pred : N -> bool) t,
  (exists u us g c v, t = u ++ g ++ v /\ Text u us /\ Forall (fun x => pred x = false) us /\ uchar g c /\ pred c = true)
  \/ (exists us, Text t us /\ Forall (fun x => pred x = false) us)
  \/ (exists u us r, t = u ++ r /\ Text u us /\ Forall (fun x => pred x = false) us /\ Malformed r).
Proof. exact first_where_cases. Qed.
Print Assumptions C16_cases_exhaustive.
Theorem C16_find_first_of : forall chars pre,
  (forall u us g c v, Text u us -> Forall (fun x => ~ In x chars) us -> uchar g c -> In c chars ->
     find_first_of (pre ++ u ++ g ++ v) chars (size pre) = Ok (Sub (size (pre ++ u)) (size g), c)) /\
  (forall u us, Text u us -> Forall (fun x => ~ In x chars) us ->
     find_first_of (pre ++ u) chars (size pre) = Ok (Sub npos 0, INVALID_CHAR)) /\
  (forall u us r, Text u us -> Forall (fun x => ~ In x chars) us -> Malformed r ->
     find_first_of (pre ++ u ++ r) chars (size pre) = Throw YstringException).
Proof. exact p_first_of. Qed.
Print Assumptions C16_find_first_of.
Example C16_ex : find_first_of [x41; x42; xe2; x82; xac; x42] [0x20AC; 0x43] 1 = Ok (Sub 2 3, 0x20AC).
Proof. reflexivity. Qed.

(** C17: [post] is the text at and after min(offset, size). *)
Theorem C17_find_last_where : forall pred post o,
  (forall pre u us g c, N.min o (size (pre ++ g ++ u ++ post)) = size (pre ++ g ++ u) ->
     Text u us -> Forall (fun x => pred x = false) us -> uchar g c -> pred c = true ->
     find_last_where (pre ++ g ++ u ++ post) pred o = Ok (Sub (size pre) (size g), c)) /\
  (forall u us, N.min o (size (u ++ post)) = size u -> Text u us -> Forall (fun x => pred x = false) us ->
     find_last_where (u ++ post) pred o = Ok (Sub npos 0, INVALID_CHAR)) /\
  (forall r u us, N.min o (size (r ++ u ++ post)) = size (r ++ u) ->
     Text u us -> Forall (fun x => pred x = false) us -> MalformedEnd r ->
     (~ long_cont_tail r -> find_last_where (r ++ u ++ post) pred o = Throw YstringException) /\
     (long_cont_tail r -> find_last_where (r ++ u ++ post) pred o = UB)).
Proof. exact p_c17. Qed.
Print Assumptions C17_find_last_where.
Theorem C17_cases_exhaustive : forall (pred : N -> bool) b,
  (exists pre g c u us, b = pre ++ g ++ u /\ Text u us /\ Forall (fun x => pred x = false) us /\ uchar g c /\ pred c = true)
  \/ (exists us, Text b us /\ Forall (fun x => pred x = false) us)
  \/ (exists r u us, b = r ++ u /\ Text u us /\ Forall (fun x => pred x = false) us /\ MalformedEnd r).
Proof. exact last_where_cases. Qed.
Print Assumptions C17_cases_exhaustive.
Theorem C17_find_last_of : forall chars post o,
  (forall pre u us g c, N.min o (size (pre ++ g ++ u ++ post)) = size (pre ++ g ++ u) ->
     Text u us -> Forall (fun x => ~ In x chars) us -> uchar g c -> In c chars ->
     find_last_of (pre ++ g ++ u ++ post) chars o = Ok (Sub (size pre) (size g), c)) /\
  (forall u us, N.min o (size (u ++ post)) = size u -> Text u us -> Forall (fun x => ~ In x chars) us ->
     find_last_of (u ++ post) chars o = Ok (Sub npos 0, INVALID_CHAR)) /\
  (forall r u us, N.min o (size (r ++ u ++ post)) = size (r ++ u) ->
     Text u us -> Forall (fun x => ~ In x chars) us -> MalformedEnd r ->
     (~ long_cont_tail r -> find_last_of (r ++ u ++ post) chars o = Throw YstringException) /\
     (long_cont_tail r -> find_last_of (r ++ u ++ post) chars o = UB)).
Proof. exact p_last_of. Qed.
Print Assumptions C17_find_last_of.
Example C17_ex : find_last_of [x41; xe2; x82; xac; x42; x43] [0x20AC; 0x43] 5 = Ok (Sub 1 3, 0x20AC).
Proof. reflexivity. Qed.

(** C18, when the memory after the array NEWLINES starts with a zero (see C20),
    so that it holds exactly the newlines.  The offset is [size pre]. *)
Theorem C18_find_first_newline : forall after pre,
  let ffn := find_first_newline (0 :: after) in
  (* one newline code point, not CR followed by LF *)
  (forall u us g c v, Fits (pre ++ u ++ g ++ v) -> Text u us -> no_newline us -> uchar g c -> newline c ->
     (c <> 0x0D \/ v = [] \/ exists d w, d <> 0x0A /\ starts_with_codepoint v d w) ->
     ffn (pre ++ u ++ g ++ v) (size pre) = Ok (Sub (size (pre ++ u)) (size g))) /\
  (* CR LF *)
  (forall u us cr lf w, Fits (pre ++ u ++ cr ++ lf ++ w) -> Text u us -> no_newline us -> uchar cr 0x0D -> uchar lf 0x0A ->
     ffn (pre ++ u ++ cr ++ lf ++ w) (size pre) = Ok (Sub (size (pre ++ u)) (size (cr ++ lf)))) /\
  (* none *)
  (forall u us, Text u us -> no_newline us -> ffn (pre ++ u) (size pre) = Ok (Sub npos 0)) /\
  (* a malformed sequence comes first, or follows the CR *)
  (forall u us r, Text u us -> no_newline us -> Malformed r -> ffn (pre ++ u ++ r) (size pre) = Throw YstringException) /\
  (forall u us cr r, Fits (pre ++ u ++ cr ++ r) -> Text u us -> no_newline us -> uchar cr 0x0D -> Malformed r ->
     ffn (pre ++ u ++ cr ++ r) (size pre) = Throw YstringException).
Proof. exact p_c18. Qed.
Print Assumptions C18_find_first_newline.
Example C18_ex : find_first_newline [0] [x41; x0d; x0a; x42] 0 = Ok (Sub 1 2).
Proof. reflexivity. Qed.

(** C18 for every content [after] of the memory behind the array: without a zero
    the call is undefined, otherwise what precedes the zero counts as newline. *)
Theorem C18_any_memory : forall after pre,
  (Forall (fun c => c <> 0) after -> forall s o, find_first_newline after s o = UB) /\
  forall extra, followed_by after extra ->
  let ffn := find_first_newline after in
  (forall u us g c v, Fits (pre ++ u ++ g ++ v) -> Text u us -> no_line_ends extra us -> uchar g c -> line_end extra c ->
     (c <> 0x0D \/ v = [] \/ exists d w, d <> 0x0A /\ starts_with_codepoint v d w) ->
     ffn (pre ++ u ++ g ++ v) (size pre) = Ok (Sub (size (pre ++ u)) (size g))) /\
  (forall u us cr lf w, Fits (pre ++ u ++ cr ++ lf ++ w) -> Text u us -> no_line_ends extra us -> uchar cr 0x0D -> uchar lf 0x0A ->
     ffn (pre ++ u ++ cr ++ lf ++ w) (size pre) = Ok (Sub (size (pre ++ u)) (size (cr ++ lf)))) /\
  (forall u us, Text u us -> no_line_ends extra us -> ffn (pre ++ u) (size pre) = Ok (Sub npos 0)) /\
  (forall u us r, Text u us -> no_line_ends extra us -> Malformed r -> ffn (pre ++ u ++ r) (size pre) = Throw YstringException) /\
  (forall u us cr r, Fits (pre ++ u ++ cr ++ r) -> Text u us -> no_line_ends extra us -> uchar cr 0x0D -> Malformed r ->
     ffn (pre ++ u ++ cr ++ r) (size pre) = Throw YstringException).
Proof. exact p_c18_all. Qed.
Print Assumptions C18_any_memory.
Example C18_memory_ex : followed_by [0x2E; 0; 0x41] [0x2E] /\ find_first_newline [0x2E; 0; 0x41] [x41; x2e; x0a] 0 = Ok (Sub 1 1) /\
  find_first_newline [0x2E; 0x41] [x41; x2e; x0a] 0 = UB.
Proof. split; [exists [0x41]; split; [reflexivity|apply Forall_cons; [discriminate|apply Forall_nil]]|split; reflexivity]. Qed.

(** C19, under the same condition.  [post] is the text at and after min(offset, size). *)
Theorem C19_find_last_newline : forall after post o,
  let fln := find_last_newline (0 :: after) in
  (forall v g c u us, Fits (v ++ g ++ u ++ post) -> N.min o (size (v ++ g ++ u ++ post)) = size (v ++ g ++ u) ->
     Text u us -> no_newline us -> uchar g c -> newline c ->
     (c <> 0x0A \/ v = [] \/ exists d w, d <> 0x0D /\ ends_with_codepoint v d w) ->
     fln (v ++ g ++ u ++ post) o = Ok (Sub (size v) (size g))) /\
  (forall w cr lf u us, Fits (w ++ cr ++ lf ++ u ++ post) ->
     N.min o (size (w ++ cr ++ lf ++ u ++ post)) = size (w ++ cr ++ lf ++ u) ->
     Text u us -> no_newline us -> uchar lf 0x0A -> uchar cr 0x0D ->
     fln (w ++ cr ++ lf ++ u ++ post) o = Ok (Sub (size w) (size (cr ++ lf)))) /\
  (forall u us, N.min o (size (u ++ post)) = size u -> Text u us -> no_newline us ->
     fln (u ++ post) o = Ok (Sub npos 0)) /\
  (forall r u us, N.min o (size (r ++ u ++ post)) = size (r ++ u) -> Text u us -> no_newline us ->
     MalformedEnd r -> ~ long_cont_tail r -> fln (r ++ u ++ post) o = Throw YstringException) /\
  (forall v lf u us, Fits (v ++ lf ++ u ++ post) -> N.min o (size (v ++ lf ++ u ++ post)) = size (v ++ lf ++ u) ->
     Text u us -> no_newline us -> uchar lf 0x0A -> MalformedEnd v -> ~ long_cont_tail v ->
     fln (v ++ lf ++ u ++ post) o = Throw YstringException).
Proof. exact p_c19. Qed.
Print Assumptions C19_find_last_newline.
Example C19_ex : find_last_newline [0] [x41; x0d; x0a; x42] npos = Ok (Sub 1 2).
Proof. reflexivity. Qed.

(** C19 for every content of the memory behind the array, and for every byte
    string: undefined also where decode_prev is (C05). *)
Theorem C19_any_memory : forall after post o,
  (Forall (fun c => c <> 0) after -> forall s o, find_last_newline after s o = UB) /\
  forall extra, followed_by after extra ->
  let fln := find_last_newline after in
  (forall v g c u us, Fits (v ++ g ++ u ++ post) -> N.min o (size (v ++ g ++ u ++ post)) = size (v ++ g ++ u) ->
     Text u us -> no_line_ends extra us -> uchar g c -> line_end extra c ->
     (c <> 0x0A \/ v = [] \/ exists d w, d <> 0x0D /\ ends_with_codepoint v d w) ->
     fln (v ++ g ++ u ++ post) o = Ok (Sub (size v) (size g))) /\
  (forall w cr lf u us, Fits (w ++ cr ++ lf ++ u ++ post) ->
     N.min o (size (w ++ cr ++ lf ++ u ++ post)) = size (w ++ cr ++ lf ++ u) ->
     Text u us -> no_line_ends extra us -> uchar lf 0x0A -> uchar cr 0x0D ->
     fln (w ++ cr ++ lf ++ u ++ post) o = Ok (Sub (size w) (size (cr ++ lf)))) /\
  (forall u us, N.min o (size (u ++ post)) = size u -> Text u us -> no_line_ends extra us ->
     fln (u ++ post) o = Ok (Sub npos 0)) /\
  (forall r u us, N.min o (size (r ++ u ++ post)) = size (r ++ u) -> Text u us -> no_line_ends extra us -> MalformedEnd r ->
     (~ long_cont_tail r -> fln (r ++ u ++ post) o = Throw YstringException) /\
     (long_cont_tail r -> fln (r ++ u ++ post) o = UB)) /\
  (forall v lf u us, Fits (v ++ lf ++ u ++ post) -> N.min o (size (v ++ lf ++ u ++ post)) = size (v ++ lf ++ u) ->
     Text u us -> no_line_ends extra us -> uchar lf 0x0A -> MalformedEnd v ->
     (~ long_cont_tail v -> fln (v ++ lf ++ u ++ post) o = Throw YstringException) /\
     (long_cont_tail v -> fln (v ++ lf ++ u ++ post) o = UB)).
Proof. exact p_c19_all. Qed.
Print Assumptions C19_any_memory.
Example C19_memory_ex : find_last_newline [0x2E; 0] [x0a; x2e; x41] npos = Ok (Sub 1 1).
Proof. reflexivity. Qed.

(** C20 is false: the arrays are not terminated, and are converted through the
    pointer constructor.  With nothing known after the array every call is
    undefined; with a letter after it the letter counts as a newline. *)
Theorem C20_arrays_refuted : forall s o,
  find_first_newline [] s o = UB /\ find_last_newline [] s o = UB /\
  trim_default [] s = UB /\ trim_start_default [] s = UB /\ trim_end_default [] s = UB.
Proof. exact p_arrays_UB. Qed.
Print Assumptions C20_arrays_refuted.
Theorem C20_stray_character_refuted : find_first_newline [0x41; 0] [x41] 0 = Ok (Sub 0 1).
Proof. exact eq_refl. Qed.
Print Assumptions C20_stray_character_refuted.
(** Exactly what happens for every memory content [after]; every content is one
    of the two kinds. *)
Theorem C20_arrays_partial : forall after s,
  (Forall (fun c => c <> 0) after -> forall o n ign,
     find_first_newline after s o = UB /\ find_last_newline after s o = UB /\
     trim_default after s = UB /\ trim_start_default after s = UB /\ trim_end_default after s = UB /\
     (0 < n -> split_lines after s n ign = UB)) /\
  (forall extra, followed_by after extra ->
     trim_default after s = trim s ([0x20; 0x09; 0x0A; 0x0D] ++ extra) /\
     trim_start_default after s = trim_start s ([0x20; 0x09; 0x0A; 0x0D] ++ extra) /\
     trim_end_default after s = trim_end s ([0x20; 0x09; 0x0A; 0x0D] ++ extra)).
Proof. exact p_c20_all. Qed.
Print Assumptions C20_arrays_partial.
(** The three arrays, seen through a view: *)
Theorem C20_views : forall after,
  (Forall (fun c => c <> 0) after ->
     u32view_of_ptr (ASCII_WHITESPACE ++ after) = UB /\ u32view_of_ptr (COMMON_WHITESPACE ++ after) = UB /\
     u32view_of_ptr (NEWLINES ++ after) = UB) /\
  (forall extra, followed_by after extra ->
     u32view_of_ptr (ASCII_WHITESPACE ++ after) = Ok ([0x20; 0x09; 0x0A; 0x0D; 0x0C; 0x0B] ++ extra) /\
     u32view_of_ptr (COMMON_WHITESPACE ++ after) = Ok ([0x20; 0x09; 0x0A; 0x0D] ++ extra) /\
     u32view_of_ptr (NEWLINES ++ after) = Ok ([0x0A; 0x0B; 0x0C; 0x0D; 0x85; 0x2028; 0x2029] ++ extra)).
Proof. exact p_c20_views. Qed.
Print Assumptions C20_views.
Theorem C20_memory_cases : forall after, Forall (fun c => c <> 0) after \/ exists extra, followed_by after extra.
Proof. exact memory_cases. Qed.
Print Assumptions C20_memory_cases.
Example C20_ex : trim_default [0x2E; 0] [x2e; x20; x41; x20; x2e] = Ok [x41] /\ trim_default [0; 0x2E] [x2e; x20] = Ok [x2e].
Proof. split; reflexivity. Qed.

(** C41 *)
Theorem C41_trim_chars : forall chars,
  let inside cs := Forall (fun c => In c chars) cs in
  let p c := In c chars in
  (forall u us m ms, Fits (u ++ m) -> Text u us -> Text m ms -> inside us -> first_out p ms ->
     trim_start (u ++ m) chars = Ok m) /\
  (forall m ms v vs, Fits (m ++ v) -> Text m ms -> Text v vs -> inside vs -> last_out p ms ->
     trim_end (m ++ v) chars = Ok m) /\
  (forall u us m ms v vs, Fits (u ++ m ++ v) -> Text u us -> Text m ms -> Text v vs ->
     inside us -> inside vs -> first_out p ms -> last_out p ms ->
     trim (u ++ m ++ v) chars = Ok m).
Proof. exact p_trim_set. Qed.
Print Assumptions C41_trim_chars.
Theorem C41_trim_where : forall pred : N -> bool,
  (forall u us m ms, Fits (u ++ m) -> Text u us -> Text m ms ->
     Forall (fun c => pred c = true) us -> first_out (fun c => pred c = true) ms ->
     trim_start_where (u ++ m) pred = Ok m) /\
  (forall m ms v vs, Fits (m ++ v) -> Text m ms -> Text v vs ->
     Forall (fun c => pred c = true) vs -> last_out (fun c => pred c = true) ms ->
     trim_end_where (m ++ v) pred = Ok m) /\
  (forall u us m ms v vs, Fits (u ++ m ++ v) -> Text u us -> Text m ms -> Text v vs ->
     Forall (fun c => pred c = true) us -> Forall (fun c => pred c = true) vs ->
     first_out (fun c => pred c = true) ms -> last_out (fun c => pred c = true) ms ->
     trim_where (u ++ m ++ v) pred = Ok m).
Proof. exact p_trim_where. Qed.
Print Assumptions C41_trim_where.
(** Every valid string has such a division. *)
Theorem C41_division : forall (pred : N -> bool) s cs, Text s cs ->
  exists u us m ms v vs, s = u ++ m ++ v /\ Text u us /\ Text m ms /\ Text v vs /\
    Forall (fun c => pred c = true) us /\ Forall (fun c => pred c = true) vs /\
    first_out (fun c => pred c = true) ms /\ last_out (fun c => pred c = true) ms.
Proof. exact p_trim_division. Qed.
Print Assumptions C41_division.
(** Any bytes: only the two ends are decoded, up to a code point that stays; the
    bytes between them need not be valid, and what is met first decides. *)
Theorem C41_start_any_bytes : forall (pred : N -> bool) u us r, Fits (u ++ r) -> Text u us -> Forall (fun c => pred c = true) us ->
  (r = [] -> trim_start_where (u ++ r) pred = Ok []) /\
  (forall g c v, r = g ++ v -> uchar g c -> pred c = false -> trim_start_where (u ++ r) pred = Ok r) /\
  (Malformed r -> trim_start_where (u ++ r) pred = Throw YstringException).
Proof. exact p_trim_start_any. Qed.
Print Assumptions C41_start_any_bytes.
Theorem C41_end_any_bytes : forall (pred : N -> bool) r u us, Fits (r ++ u) -> Text u us -> Forall (fun c => pred c = true) us ->
  (r = [] -> trim_end_where (r ++ u) pred = Ok []) /\
  (forall g c v, r = v ++ g -> uchar g c -> pred c = false -> trim_end_where (r ++ u) pred = Ok r) /\
  (MalformedEnd r -> ~ long_cont_tail r -> trim_end_where (r ++ u) pred = Throw YstringException).
Proof. exact p_trim_end_any. Qed.
Print Assumptions C41_end_any_bytes.
Theorem C41_any_bytes : forall (pred : N -> bool) u us r, Fits (u ++ r) -> Text u us -> Forall (fun c => pred c = true) us ->
  (r = [] -> trim_where (u ++ r) pred = Ok []) /\
  (Malformed r -> trim_where (u ++ r) pred = Throw YstringException) /\
  (forall g c x m w ws, r = g ++ x -> uchar g c -> pred c = false -> r = m ++ w -> Text w ws -> Forall (fun c => pred c = true) ws ->
     (forall h d y, m = y ++ h -> uchar h d -> pred d = false -> trim_where (u ++ r) pred = Ok m) /\
     (MalformedEnd m -> ~ long_cont_tail m -> trim_where (u ++ r) pred = Throw YstringException)).
Proof. exact p_trim_any. Qed.
Print Assumptions C41_any_bytes.
(** Every byte string is divided like that, from either end. *)
Theorem C41_any_cases : forall (pred : N -> bool) s,
  (exists u us r, s = u ++ r /\ Text u us /\ Forall (fun c => pred c = true) us /\
     (r = [] \/ Malformed r \/ exists g c v, r = g ++ v /\ uchar g c /\ pred c = false)) /\
  (exists r u us, s = r ++ u /\ Text u us /\ Forall (fun c => pred c = true) us /\
     (r = [] \/ MalformedEnd r \/ exists g c v, r = v ++ g /\ uchar g c /\ pred c = false)).
Proof. exact p_trim_any_cases. Qed.
Print Assumptions C41_any_cases.
Example C41_any_ex : trim [x20; x61; xff; xfe; x62; x20] [0x20] = Ok [x61; xff; xfe; x62] /\
  trim [x20; xff; x61; x20] [0x20] = Throw YstringException /\ trim_end [x20; xff; x61; x20] [0x20] = Ok [x20; xff; x61] /\
  trim_start [x20; x61; xff] [0x20] = Ok [x61; xff] /\ trim [x20; x61; xff] [0x20] = Throw YstringException.
Proof. repeat split; vm_compute; reflexivity. Qed.

Example C41_ex : trim [x20; x41; x20; x42; x20; x20] [0x20; 0x09] = Ok [x41; x20; x42].
Proof. reflexivity. Qed.

(** C42 *)
Theorem C42_join : forall l d, join l d = interleave d l.
Proof. exact join_spec. Qed.
Print Assumptions C42_join.
Example C42_ex : join [[x41]; []; [x42]] [x2c; x20] = [x41; x2c; x20; x2c; x20; x42].
Proof. reflexivity. Qed.
