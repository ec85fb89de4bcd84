(** C111, C112: the caller's variables after an exception; where returned views point. *)
From Coq Require Import String.
From Verif Require Import Base Model.Decode Model.Encode Model.Subrange Model.Search Model.CharClass Model.Chars Model.Split Model.CaseInsensitive
  Model.Escape Model.Unescape Model.Callbacks Model.References Model.Views
  Spec.Utf8Spec Spec.Strings Spec.Newline Spec.Split Spec.Slices Spec.CaseFold Spec.Escape Spec.Views
  Proofs.SplitLemmas Proofs.RefLemmas Proofs.ViewProps.
Local Notation "'#' s" := (list_byte_of_string s%string) (at level 5, only parsing).

(** C111.  The variables [it] and [ch] of safe_decode_next: at the end neither is
    changed; after an exception [it] is where it was and [ch] is INVALID_CHAR. *)
Theorem C111_decode_next : forall pre r ch,
  (r = [] -> safe_decode_next_ref (pre ++ r) (length pre, ch) = (Ok false, (length pre, ch))) /\
  (forall g c t, r = g ++ t -> uchar g c -> safe_decode_next_ref (pre ++ r) (length pre, ch) = (Ok true, ((length pre + length g)%nat, c))) /\
  (Malformed r -> safe_decode_next_ref (pre ++ r) (length pre, ch) = (Throw YstringException, (length pre, 0xFFFFFFFF))).
Proof. exact p_c111_next. Qed.
Print Assumptions C111_decode_next.
Theorem C111_decode_prev : forall r post ch,
  (r = [] -> safe_decode_prev_ref (r ++ post) (length r, ch) = (Ok false, (length r, ch))) /\
  (forall t g c, r = t ++ g -> uchar g c -> safe_decode_prev_ref (r ++ post) (length r, ch) = (Ok true, (length t, c))) /\
  (MalformedEnd r -> ~ long_cont_tail r ->
     safe_decode_prev_ref (r ++ post) (length r, ch) = (Throw YstringException, (length r, 0xFFFFFFFF))).
Proof. exact p_c111_prev. Qed.
Print Assumptions C111_decode_prev.
(** So the character is lost: *)
Theorem C111_char_refuted : safe_decode_next_ref [x41; xff] (1%nat, 0x41) = (Throw YstringException, (1%nat, 0xFFFFFFFF)).
Proof. reflexivity. Qed.
Print Assumptions C111_char_refuted.
(** The view that a code point is taken off keeps its value when there is none
    and after an exception; [ch0] is what the function's own variable held. *)
Theorem C111_pop : forall ch0 s,
  (s = [] -> pop_utf8_codepoint_ref ch0 s = (Ok None, s)) /\
  (forall g c t, s = g ++ t -> uchar g c -> pop_utf8_codepoint_ref ch0 s = (Ok (Some c), t)) /\
  (Malformed s -> pop_utf8_codepoint_ref ch0 s = (Throw YstringException, s)).
Proof. exact p_c111_pop. Qed.
Print Assumptions C111_pop.
Theorem C111_pop_last : forall ch0 s,
  (s = [] -> pop_last_utf8_codepoint_ref ch0 s = (Ok None, s)) /\
  (forall t g c, s = t ++ g -> uchar g c -> pop_last_utf8_codepoint_ref ch0 s = (Ok (Some c), t)) /\
  (MalformedEnd s -> ~ long_cont_tail s -> pop_last_utf8_codepoint_ref ch0 s = (Throw YstringException, s)).
Proof. exact p_c111_pop_last. Qed.
Print Assumptions C111_pop_last.
(** The string that append appends to. *)
Theorem C111_append : forall s c s' e, append_to s c = (Throw e, s') -> s' = s.
Proof.
  intros s c s' e. unfold append_to. destruct (encode_utf8 c) as [b n] eqn:E. destruct (n =? 0) eqn:En; [|discriminate].
  intros H. injection H as _ <-. unfold encode_utf8 in E. injection E as <- <-. apply N.eqb_eq in En. rewrite En.
  now rewrite app_nil_r.
Qed.
Print Assumptions C111_append.
(** What unescape_next stores in [did_unescape] before it throws, when the view is
    left at [s'] (C63): nothing for a lone backslash, true for another escape
    sequence, false for malformed UTF-8. *)
Theorem C111_flag : forall s s' b, unescape_next s = ((Throw YstringException, s'), b) ->
  (s' = [x5c] /\ b = None) \/ (exists t, s' = x5c :: t /\ t <> [] /\ b = Some true) \/
  (exists a t, s' = a :: t /\ a <> x5c /\ b = Some false).
Proof. exact p_c111_flag. Qed.
Print Assumptions C111_flag.
(** The buffer of unescape(char*, size_t).  When it throws, the text [s] was read
    up to a rejected escape sequence [r], what was read stands for [t1 ++ t2], and
    the buffer holds [t1] followed by its old bytes; [t2] is the plain text
    directly before [r], or nothing. *)
Theorem C111_buffer_partial : forall s b, Fits s -> unescape_buf_ref s = (Throw YstringException, b) ->
  exists a t2 r t1, s = a ++ t2 ++ r /\ Reads handled s r (t1 ++ t2) /\ Rejected r /\ ~ In x5c t2 /\ (length t1 <= length a)%nat /\
    b = t1 ++ skipn (length t1) s.
Proof. exact p_c111_buffer. Qed.
Print Assumptions C111_buffer_partial.
Theorem C111_buffer_refuted : unescape_buf_ref #"\tab\ncd\xg" = (Throw YstringException, [x09; x61; x62; x0a] ++ #"\ncd\xg").
Proof. vm_compute. reflexivity. Qed.
Print Assumptions C111_buffer_refuted.
Theorem C111_buffer_ok : forall s b n, unescape_buf s = Ok (b, n) <-> unescape_buf_ref s = (Ok n, b).
Proof. exact p_c111_buffer_ok. Qed.
Print Assumptions C111_buffer_ok.
Example C111_ex : pop_utf8_codepoint_ref 7 [xe2; x82] = (Throw YstringException, [xe2; x82]) /\
  pop_last_utf8_codepoint_ref 7 [x61; xe2; x82; xac] = (Ok (Some 0x20AC), [x61]) /\
  unescape_next #"\" = ((Throw YstringException, #"\"), None) /\ unescape_next #"\u1" = ((Throw YstringException, #"\u1"), Some true) /\
  unescape_next [xff] = ((Throw YstringException, [xff]), Some false) /\ append_to [x61] 0x110000 = (Throw YstringException, [x61]).
Proof. repeat split; vm_compute; reflexivity. Qed.

(** C112.  Views as places in the caller's array [m]: their bytes are those of the
    functions on strings, ... *)
Theorem C112_contents : forall m v, within m v ->
  (forall p, omap (bytes m) (v_trim_start_where m v p) = trim_start_where (bytes m v) p) /\
  (forall p, omap (bytes m) (v_trim_end_where m v p) = trim_end_where (bytes m v) p) /\
  (forall p, omap (bytes m) (v_trim_where m v p) = trim_where (bytes m v) p) /\
  (forall i j, omap (bytes m) (v_get_codepoint_substring m v i j) = get_codepoint_substring (bytes m v) i j) /\
  (forall i j, omap (bytes m) (v_get_char_substring m v i j) = get_char_substring (bytes m v) i j) /\
  (forall f n ign, omap (map (bytes m)) (v_split_where m v f n ign) = split_where (bytes m v) f n ign).
Proof. exact p_c112_contents. Qed.
Print Assumptions C112_contents.
(** ... and they lie in the argument. *)
Theorem C112_inside : forall m v w ws, within m v ->
  (forall p, v_trim_start_where m v p = Ok w -> part_of v w) /\
  (forall p, v_trim_end_where m v p = Ok w -> part_of v w) /\
  (forall p, v_trim_where m v p = Ok w -> part_of v w) /\
  (forall i j, v_get_codepoint_substring m v i j = Ok w -> part_of v w /\ (v <> None -> w <> None)) /\
  (forall i j, v_get_char_substring m v i j = Ok w -> part_of v w /\ (v <> None -> w <> None)) /\
  (forall f n ign, v_split_where m v f n ign = Ok ws -> Forall (part_of v) ws).
Proof. exact p_c112_inside. Qed.
Print Assumptions C112_inside.
(** The functions with given characters instead of a predicate or finder. *)
Theorem C112_instances : forall m v,
  (forall chars, v_trim_start m v chars = v_trim_start_where m v (fun c => existsb (fun d => N.eqb d c) chars)) /\
  (forall chars, v_trim_end m v chars = v_trim_end_where m v (fun c => existsb (fun d => N.eqb d c) chars)) /\
  (forall chars, v_trim m v chars = v_trim_where m v (fun c => existsb (fun d => N.eqb d c) chars)).
Proof. intros m v. repeat split. Qed.
Print Assumptions C112_instances.
(** Trimming: what is left stays where it was, ... *)
Theorem C112_trim_start : forall pre s post p w, Fits s -> v_trim_start_where (pre ++ s ++ post) (view_of pre s) p = Ok w ->
  (trim_start_where s p = Ok [] /\ w = None) \/
  exists a b, s = a ++ b /\ b <> [] /\ trim_start_where s p = Ok b /\ w = Some ((length pre + length a)%nat, length b).
Proof. exact p_c112_trim_start. Qed.
Print Assumptions C112_trim_start.
Theorem C112_trim_end : forall pre s post p w, Fits s -> v_trim_end_where (pre ++ s ++ post) (view_of pre s) p = Ok w ->
  (trim_end_where s p = Ok [] /\ w = None) \/
  exists b a, s = b ++ a /\ b <> [] /\ trim_end_where s p = Ok b /\ w = Some (length pre, length b).
Proof. exact p_c112_trim_end. Qed.
Print Assumptions C112_trim_end.
Theorem C112_trim : forall pre s post p w, Fits s -> v_trim_where (pre ++ s ++ post) (view_of pre s) p = Ok w ->
  (trim_where s p = Ok [] /\ w = None) \/
  exists a b c, s = a ++ b ++ c /\ b <> [] /\ trim_start_where s p = Ok (b ++ c) /\ trim_where s p = Ok b /\
    w = Some ((length pre + length a)%nat, length b).
Proof. exact p_c112_trim. Qed.
Print Assumptions C112_trim.
(** ... but when nothing is left the result is a null view, not an empty view in
    the argument. *)
Theorem C112_null_refuted : forall pre s post us p, Fits s -> Text s us -> Forall (fun c => p c = true) us ->
  v_trim_start_where (pre ++ s ++ post) (view_of pre s) p = Ok None /\
  v_trim_end_where (pre ++ s ++ post) (view_of pre s) p = Ok None /\
  v_trim_where (pre ++ s ++ post) (view_of pre s) p = Ok None.
Proof. exact p_c112_trim_null. Qed.
Print Assumptions C112_null_refuted.
(** Substrings start where their first unit is (indices as in C26 and C27). *)
Theorem C112_codepoint_substring_partial : forall pre ps post i j, CodeUnits ps -> Fits (concat ps) ->
  (- 0x8000000000000000 < i <= 0x7FFFFFFFFFFFFFFF)%Z -> (- 0x8000000000000000 < j <= 0x7FFFFFFFFFFFFFFF)%Z ->
  (0 <= i /\ 0 <= j)%Z \/ (i < j < 0)%Z \/ (j < 0 <= i)%Z ->
  v_get_codepoint_substring (pre ++ concat ps ++ post) (view_of pre (concat ps)) i j =
  Ok (Some ((length pre + N.to_nat (offset_of ps (resolve (length ps) i)))%nat, length (concat (units_between ps i j)))).
Proof. exact p_c112_cp_substring. Qed.
Print Assumptions C112_codepoint_substring_partial.
Theorem C112_char_substring_partial : forall pre ps post i j, Characters is_mark ps -> Fits (concat ps) ->
  (- 0x8000000000000000 <= i <= 0x7FFFFFFFFFFFFFFF)%Z -> (- 0x8000000000000000 <= j <= 0x7FFFFFFFFFFFFFFF)%Z ->
  (0 <= i /\ 0 <= j)%Z \/ (i < j < 0)%Z \/ (i < 0 <= j)%Z ->
  v_get_char_substring (pre ++ concat ps ++ post) (view_of pre (concat ps)) i j =
  Ok (Some ((length pre + N.to_nat (offset_of ps (resolve (length ps) i)))%nat, length (concat (units_between ps i j)))).
Proof. exact p_c112_char_substring. Qed.
Print Assumptions C112_char_substring_partial.
(** Every pair of indices, also those for which the text is not the one asked for
    (C26, C27): the view is where unit [i] is, or at the beginning if the indices
    are both from the end and in the wrong order. *)
Theorem C112_codepoint_place : forall pre ps post i j, CodeUnits ps -> Fits (concat ps) ->
  (- 0x8000000000000000 < i <= 0x7FFFFFFFFFFFFFFF)%Z -> (- 0x8000000000000000 < j <= 0x7FFFFFFFFFFFFFFF)%Z ->
  exists t, get_codepoint_substring (concat ps) i j = Ok t /\
    v_get_codepoint_substring (pre ++ concat ps ++ post) (view_of pre (concat ps)) i j =
    Ok (Some ((length pre + if ((j <=? i) && (i <? 0))%Z then 0 else length (concat (units_before ps i)))%nat, length t)).
Proof. exact p_c112_cp_any. Qed.
Print Assumptions C112_codepoint_place.
Theorem C112_char_place : forall pre ps post i j, Characters is_mark ps -> Fits (concat ps) ->
  (- 0x8000000000000000 <= i <= 0x7FFFFFFFFFFFFFFF)%Z -> (- 0x8000000000000000 <= j <= 0x7FFFFFFFFFFFFFFF)%Z ->
  exists t, get_char_substring (concat ps) i j = Ok t /\
    v_get_char_substring (pre ++ concat ps ++ post) (view_of pre (concat ps)) i j =
    Ok (Some ((length pre + if ((j <=? i) && (i <? 0))%Z then 0 else length (concat (units_before ps i)))%nat, length t)).
Proof. exact p_c112_char_any. Qed.
Print Assumptions C112_char_place.
Example C112_place_ex : v_get_codepoint_substring #"[abcd]" (Some (1, 4)%nat) (-3) 2 = Ok (Some (2, 2)%nat) /\
  v_get_codepoint_substring #"[abcd]" (Some (1, 4)%nat) (-1) (-2) = Ok (Some (1, 3)%nat) /\
  v_get_char_substring #"[abcdef]" (Some (1, 6)%nat) 4 (-1) = Ok (Some (5, 2)%nat).
Proof. vm_compute. repeat split. Qed.
(** The parts of a split: the places between the separators. *)
Theorem C112_split_any_finder : forall finder pre s post n ign cuts rest, Fits s ->
  Cuts (fun u g v => g <> [] /\ finder (u ++ g ++ v) = Ok (Sub (size u) (size g))) s cuts rest ->
  stopped (fun t => exists o, finder t = Ok (Sub o 0)) ign n cuts rest ->
  v_split_where (pre ++ s ++ post) (view_of pre s) finder n ign = Ok (kept_places ign (places (length pre) cuts rest)).
Proof. exact p_c112_split_any. Qed.
Print Assumptions C112_split_any_finder.
Theorem C112_split_sep : forall pre s post sep n ign cuts rest, sep <> [] -> Fits s -> Cuts (first_sep sep) s cuts rest ->
  stopped (fun t => forall i, ~ occurs_at sep t i) ign n cuts rest ->
  v_split_sep (pre ++ s ++ post) (view_of pre s) sep n ign = Ok (kept_places ign (places (length pre) cuts rest)).
Proof. exact p_c112_split_sep. Qed.
Print Assumptions C112_split_sep.
Theorem C112_split_chars : forall pre s post chars n ign cuts rest, Fits s -> Cuts (first_char chars) s cuts rest ->
  stopped (no_char chars) ign n cuts rest ->
  v_split_chars (pre ++ s ++ post) (view_of pre s) chars n ign = Ok (kept_places ign (places (length pre) cuts rest)).
Proof. exact p_c112_split_chars. Qed.
Print Assumptions C112_split_chars.
Theorem C112_split_lines : forall after extra pre s post n ign cuts rest, followed_by after extra -> Fits s ->
  Cuts (first_line_end_of extra) s cuts rest -> stopped (no_line_end_of extra) ign n cuts rest ->
  v_split_lines after (pre ++ s ++ post) (view_of pre s) n ign = Ok (kept_places ign (places (length pre) cuts rest)).
Proof. exact p_c112_split_lines. Qed.
Print Assumptions C112_split_lines.
Theorem C112_ci_split : forall ps sep pre s post n ign cuts rest, ps <> [] -> Text sep ps -> Fits s ->
  Cuts (first_ci ps) s cuts rest -> stopped (no_ci ps) ign n cuts rest ->
  v_ci_split_sep (pre ++ s ++ post) (view_of pre s) sep n ign = Ok (kept_places ign (places (length pre) cuts rest)).
Proof. exact p_c112_ci_split. Qed.
Print Assumptions C112_ci_split.
Theorem C112_ci_split_chars : forall chars pre s post n ign cuts rest, Forall (fun d => d < 0x100000000) chars -> Fits s ->
  Cuts (first_ci_char chars) s cuts rest -> stopped (no_ci_char chars) ign n cuts rest ->
  v_ci_split_chars (pre ++ s ++ post) (view_of pre s) chars n ign = Ok (kept_places ign (places (length pre) cuts rest)).
Proof. exact p_c112_ci_chars. Qed.
Print Assumptions C112_ci_split_chars.
(** In particular, whatever the limit, they follow one another and none is null. *)
Theorem C112_order : forall finder m v n ign ws, finds_range Sub finder -> within m v -> v <> None -> Fits (bytes m v) ->
  v_split_where m v finder n ign = Ok ws -> ascending ws.
Proof. exact p_c112_order. Qed.
Print Assumptions C112_order.
(** TokenIterator: with [v], starting at [a], not yet searched; the token is too
    long (C40) but starts where it should, and at the end the token and the
    remainder are null views. *)
Theorem C112_iterator : forall finder pre s post t a v, Fits s -> ViewRun finder (pre ++ s ++ post) (length pre) s t a v ->
  let m := pre ++ s ++ post in
  bytes m (Some (a, length v)) = v /\ vti_remainder t = Ok (Some (a, length v)) /\
  (forall u g w, v = u ++ g ++ w -> g <> [] -> finder v = Ok (Sub (size u) (size g)) ->
     exists t', vti_next m finder t = Ok (true, t') /\ vti_part t' = Ok (Some (a, length u)) /\
       vti_get_token t' = Ok (Some ((a + length u)%nat, Nat.min (length u + length g) (length g + length w))) /\
       vti_remainder t' = Ok (Some ((a + length u + length g)%nat, length w))) /\
  (forall e, finder v = Ok (Sub e 0) ->
     exists t', vti_next m finder t = Ok (true, t') /\ vti_part t' = Ok (Some (a, length v)) /\
       vti_get_token t' = Ok None /\ vti_remainder t' = Ok None).
Proof. exact p_c112_iterator. Qed.
Print Assumptions C112_iterator.
Example C112_ex : let m := #"[ a,,b ]" in
  v_trim m (Some (1, 6)%nat) [0x20] = Ok (Some (2, 4)%nat) /\
  v_split_sep m (Some (2, 4)%nat) #"," SIZE_MAX false = Ok [Some (2, 1)%nat; Some (4, 0)%nat; Some (5, 1)%nat] /\
  v_split_sep m (Some (2, 4)%nat) #"," SIZE_MAX true = Ok [Some (2, 1)%nat; Some (5, 1)%nat] /\
  v_get_codepoint_substring m (Some (2, 4)%nat) (-2) (-1) = Ok (Some (4, 1)%nat) /\
  v_get_char_substring m (Some (2, 4)%nat) 1 9 = Ok (Some (3, 3)%nat) /\
  v_trim m (Some (1, 1)%nat) [0x20] = Ok None /\
  view_of #"[ " #"a,,b" = Some (2, 4)%nat.
Proof. repeat split; vm_compute; reflexivity. Qed.
Example C112_iterator_ex : exists t, ViewRun (fun t => find_first t #"," 0) (#"x" ++ #"a,b" ++ #"y") 1 #"a,b" t 3 #"b".
Proof.
  eexists. apply (view_next _ _ _ _ (vti_init (Some (1, 3)%nat)) _ 1 #"a" #"," #"b"); [constructor|reflexivity|discriminate|reflexivity].
Qed.
