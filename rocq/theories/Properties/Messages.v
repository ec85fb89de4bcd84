(** What exceptions say: C113. *)
From Coq Require Import String.
From Verif Require Import Base Model.Decode Model.Encode Model.Subrange Model.Search Model.Unescape Model.Messages
  Spec.Utf8Spec Spec.Strings Spec.Escape Spec.Print Spec.Messages Spec.Boundaries Spec.Slices Proofs.MessageLemmas.

Local Notation "'#' s" := (list_byte_of_string s%string) (at level 5, only parsing).

(** C113.  In Model/Messages.v the outcomes carry the text of the exception;
    without it ([erase]) they are those of the functions without messages. *)
Theorem C113_same_outcomes : forall file s o t k c f m,
  erase (find_first_escaped_char_m file s o) = find_first_escaped_char s o /\
  erase (has_escaped_chars_m file s) = has_escaped_chars s /\
  erase (unescape_m file s) = unescape s /\
  (forall r s' b, unescape_next_m file s = ((r, s'), b) -> unescape_next s = ((erase r, s'), b)) /\
  erase (pop_utf8_codepoint_m file s) = pop_utf8_codepoint s /\
  erase (append_m file s c) = append s c /\
  erase (insert_codepoint_m file s k c) = insert_codepoint s k c /\
  erase (insert_codepoints_m file s k t) = insert_codepoints s k t /\
  erase (replace_codepoint_m file s f c m) = replace_codepoint s f c m.
Proof.
  exact (fun file s o t k c f m => conj (erase_find file s o) (conj (erase_has file s) (conj (erase_unescape file s)
    (conj (erase_next' file s) (conj (erase_pop file s) (conj (erase_append file s c) (conj (erase_insert_codepoint file s k c)
    (conj (erase_insert_codepoints file s k t) (erase_replace_codepoint file s f c m))))))))).
Qed.
Print Assumptions C113_same_outcomes.

(** The offset in the message is that of the backslash of the first escape
    sequence at or after [size pre]. *)
Theorem C113_find : forall file pre lits w, Fits (pre ++ lits ++ w) -> ~ In x5c lits -> BadEscape w ->
  exists msg text, find_first_escaped_char_m file (pre ++ lits ++ w) (size pre) = MWhat msg /\
    EscapeComplaint (size (pre ++ lits)) w text /\ Located (file Unescape_cpp) msg text.
Proof. exact p_c113_find. Qed.
Print Assumptions C113_find.
Theorem C113_has : forall file lits w, Fits (lits ++ w) -> ~ In x5c lits -> BadEscape w ->
  exists msg text, has_escaped_chars_m file (lits ++ w) = MWhat msg /\
    EscapeComplaint (size lits) w text /\ Located (file Unescape_cpp) msg text.
Proof. exact p_c113_has. Qed.
Print Assumptions C113_has.
(** [unescape] counts in the text it was given, however much of it has been
    rewritten: [p] is everything before the bad sequence [r]. *)
Theorem C113_unescape_partial : forall file p r t, Fits (p ++ r) -> Reads handled (p ++ r) r t -> BadEscape r ->
  exists msg text, unescape_m file (p ++ r) = MWhat msg /\ EscapeComplaint (size p) r text /\ Located (file Unescape_cpp) msg text.
Proof. exact p_c113_unescape. Qed.
Print Assumptions C113_unescape_partial.
(** \u or \U at the end of the text: no offset, but the sequence itself. *)
Theorem C113_no_digits : forall file p x t, x = x75 \/ x = x55 -> Fits (p ++ [x5c; x]) -> Reads handled (p ++ [x5c; x]) [x5c; x] t ->
  exists msg, unescape_m file (p ++ [x5c; x]) = MWhat msg /\ Located (file Unescape_cpp) msg (#"Cannot parse escaped char: " ++ [x5c; x]).
Proof. exact p_c113_no_digits. Qed.
Print Assumptions C113_no_digits.
Theorem C113_half_end : forall file p ds v t, Fits (p ++ (x5c :: x75 :: ds) ++ [x5c; x75]) -> length ds = 4%nat -> Hex ds v -> high_surrogate v ->
  Reads handled (p ++ (x5c :: x75 :: ds) ++ [x5c; x75]) ((x5c :: x75 :: ds) ++ [x5c; x75]) t ->
  exists msg, unescape_m file (p ++ (x5c :: x75 :: ds) ++ [x5c; x75]) = MWhat msg /\ Located (file Unescape_cpp) msg (#"Cannot parse escaped char: " ++ [x5c; x75]).
Proof. exact p_c113_half_end. Qed.
Print Assumptions C113_half_end.
(** After the first half of a surrogate pair the offset named is wrong: it counts
    from the end of that half, [size lits], instead of from the beginning of the
    text, [size p + 6 + size lits]. *)
Theorem C113_half_refuted : forall file p ds v r lits w t,
  Fits (p ++ (x5c :: x75 :: ds) ++ r) -> length ds = 4%nat -> Hex ds v -> high_surrogate v ->
  Reads handled (p ++ (x5c :: x75 :: ds) ++ r) ((x5c :: x75 :: ds) ++ r) t ->
  firstn 6 r = lits ++ w -> ~ In x5c lits -> BadEscape w ->
  exists msg text, unescape_m file (p ++ (x5c :: x75 :: ds) ++ r) = MWhat msg /\
    EscapeComplaint (size lits) w text /\ Located (file Unescape_cpp) msg text.
Proof. exact p_c113_half. Qed.
Print Assumptions C113_half_refuted.
Example C113_half_ex : unescape_m (fun _ => #"Unescape.cpp") #"abc\uD800\xg" = MWhat #"Unescape.cpp:161: Invalid escape sequence at offset 0".
Proof. vm_compute. reflexivity. Qed.
Example C113_ex : unescape_m (fun _ => #"Unescape.cpp") #"a\x41\u0042c\xg" = MWhat #"Unescape.cpp:161: Invalid escape sequence at offset 12" /\
  unescape_m (fun _ => #"Unescape.cpp") #"ab\" = MWhat #"Unescape.cpp:122: Incomplete escape sequence at offset 2" /\
  find_first_escaped_char_m (fun _ => #"Unescape.cpp") #"\xgab\uF" 2 = MOk (Sub 5 6) /\
  find_first_escaped_char_m (fun _ => #"Unescape.cpp") #"\xgab\uFg" 2 = MWhat #"Unescape.cpp:161: Invalid escape sequence at offset 5" /\
  unescape_m (fun _ => #"Unescape.cpp") #"\t\u" = MWhat #"Unescape.cpp:65: Cannot parse escaped char: \u".
Proof. vm_compute. repeat split; reflexivity. Qed.

(** [unescape_next]: every exception it throws says what is wrong with the text
    after the backslash-newline pairs that it skips. *)
Theorem C113_next : forall file k r, ~ starts_newline r -> r <> [] -> (forall c r' b, ~ NextChar r c r' b) ->
  exists b msg text src, unescape_next_m file (concat (repeat escaped_newline k) ++ r) = ((MWhat msg, r), b) /\
    NextComplaint r text /\ Located (file src) msg text.
Proof. exact p_c113_next. Qed.
Print Assumptions C113_next.
Example C113_next_ex : fst (fst (unescape_next_m (fun _ => #"Unescape.cpp") #"\u12g")) =
  MWhat #"Unescape.cpp:252: Too few hex digits in escape sequence. Expected at least 4, got 2".
Proof. vm_compute. reflexivity. Qed.

(** Malformed UTF-8, code points that do not exist, positions that do not exist. *)
Theorem C113_malformed : forall file s, Malformed s ->
  exists msg, pop_utf8_codepoint_m file s = MWhat msg /\ Located (file DecodeUtf8_hpp) msg #"Invalid UTF-8 string.".
Proof. exact p_c113_pop. Qed.
Print Assumptions C113_malformed.
Theorem C113_append : forall file s c, 0x10FFFF < c ->
  exists msg ds, append_m file s c = MWhat msg /\ Decimal ds c /\ Located (file Algorithms_cpp) msg (#"Invalid code point: " ++ ds).
Proof. exact p_c113_append. Qed.
Print Assumptions C113_append.
Theorem C113_replace : forall file s f t m,
  (0x10FFFF < f -> exists msg ds, replace_codepoint_m file s f t m = MWhat msg /\ Decimal ds f /\
     Located (file Algorithms_cpp) msg (#"Invalid from-code point: " ++ ds)) /\
  (f <= 0x10FFFF -> 0x10FFFF < t -> exists msg ds, replace_codepoint_m file s f t m = MWhat msg /\ Decimal ds t /\
     Located (file Algorithms_cpp) msg (#"Invalid to-code point: " ++ ds)).
Proof. exact p_c113_replace. Qed.
Print Assumptions C113_replace.
Theorem C113_insert_position : forall file ps k c t, CodeUnits ps -> Fits (concat ps) ->
  (- 0x8000000000000000 < k <= 0x7FFFFFFFFFFFFFFF)%Z -> (Z.of_nat (length ps) < Z.abs k)%Z ->
  (exists msg, insert_codepoint_m file (concat ps) k c = MWhat msg /\ Located (file AlgorithmUtilities_cpp) msg #"string position is out of bounds") /\
  (t <> [] -> exists msg, insert_codepoints_m file (concat ps) k t = MWhat msg /\ Located (file AlgorithmUtilities_cpp) msg #"string position is out of bounds").
Proof. exact p_c113_insert_out. Qed.
Print Assumptions C113_insert_position.
Theorem C113_insert_codepoint : forall file ps k c, CodeUnits ps -> Fits (concat ps) ->
  (- 0x8000000000000000 < k <= 0x7FFFFFFFFFFFFFFF)%Z -> (Z.abs k <= Z.of_nat (length ps))%Z -> 0x10FFFF < c ->
  exists msg ds, insert_codepoint_m file (concat ps) k c = MWhat msg /\ Decimal ds c /\ Located (file Algorithms_cpp) msg (#"Invalid code point: " ++ ds).
Proof. exact p_c113_insert_cp. Qed.
Print Assumptions C113_insert_codepoint.
Example C113_others_ex : append_m (fun _ => #"Algorithms.cpp") [x61] 0x110000 = MWhat #"Algorithms.cpp:35: Invalid code point: 1114112" /\
  replace_codepoint_m (fun _ => #"Algorithms.cpp") [x61] 0x110001 0x110002 1 = MWhat #"Algorithms.cpp:415: Invalid from-code point: 1114113" /\
  insert_codepoint_m (fun _ => #"AlgorithmUtilities.cpp") [x61] 2 0x110000 = MWhat #"AlgorithmUtilities.cpp:127: string position is out of bounds".
Proof. vm_compute. repeat split; reflexivity. Qed.
