(** Escaping and unescaping: C57-C65, C74, C75. *)
From Coq Require Import String.
From Verif Require Import Base Model.Decode Model.Encode Model.Subrange Model.Escape Model.Unescape
  Spec.Utf8Spec Spec.Strings Spec.Escape Spec.Iterate
  Proofs.EscapeScan Proofs.UnescapeLoop Proofs.EscapeLemmas Proofs.UnescapeNext Proofs.AgreeExact.

(** Literals in the examples; Coq's strings have no escape sequences: "\n" is a
    backslash and an n. *)
Local Notation "'#' s" := (list_byte_of_string s%string) (at level 5, only parsing).

(** C57.  The output is the inside of a JSON string (RFC 8259), and each byte is
    either copied or replaced by its escape. *)
Theorem C57_json : forall s, Fits s -> exists e, escape_json s = Ok e /\ JsonBody e /\ JsonOf s e.
Proof. exact p_c57. Qed.
Print Assumptions C57_json.
Theorem C57_valid : forall s cs e, Fits s -> Text s cs -> escape_json s = Ok e -> exists ds, Text e ds.
Proof. exact p_c57_text. Qed.
Print Assumptions C57_valid.
Example C57_ex : escape_json [x61; x22; x0a; x01; xc3; xa6] = Ok (#"a\""\n\u0001" ++ [xc3; xa6]).
Proof. vm_compute. reflexivity. Qed.

(** C58 *)
Theorem C58_roundtrip : forall s e, Fits s -> Fits e -> escape_json s = Ok e -> unescape e = Ok s.
Proof. exact p_c58. Qed.
Print Assumptions C58_roundtrip.
Theorem C58_injective : forall s s' e, Fits s -> Fits s' -> escape_json s = Ok e -> escape_json s' = Ok e -> s = s'.
Proof. exact p_c58_inj. Qed.
Print Assumptions C58_injective.
Example C58_ex : unescape (#"a\""\n\u0001" ++ [xc3; xa6]) = Ok [x61; x22; x0a; x01; xc3; xa6].
Proof. vm_compute. reflexivity. Qed.

(** C59.  [pre] is the text before the offset. *)
Theorem C59_find : forall pre lits q, Forall (fun c => ~ must_escape c) lits ->
  (q = [] -> find_first_escapable_char (pre ++ lits ++ q) (size pre) = Ok (Sub (size (pre ++ lits ++ q)) 0)) /\
  (forall c q', q = c :: q' -> must_escape c ->
     find_first_escapable_char (pre ++ lits ++ q) (size pre) = Ok (Sub (size (pre ++ lits)) 1)).
Proof. exact p_c59_find. Qed.
Print Assumptions C59_find.
Theorem C59_has : forall s, Fits s -> exists b, has_escapable_chars s = Ok b /\
  (b = true <-> Exists must_escape s) /\ (b = true <-> escape_json s <> Ok s).
Proof. exact p_c59_has. Qed.
Print Assumptions C59_has.
(** An offset beyond the end forms an iterator outside the string. *)
Theorem C59_beyond : forall s o, size s < o -> find_first_escapable_char s o = UB.
Proof. exact p_c59_beyond. Qed.
Print Assumptions C59_beyond.
Example C59_ex : find_first_escapable_char #"""ab""" 1 = Ok (Sub 3 1) /\ has_escapable_chars #"""ab""" = Ok true /\
  has_escapable_chars #"ab" = Ok false.
Proof. repeat split; vm_compute; reflexivity. Qed.

(** C60.  [unescape] returns, throws or has no defined behaviour - it does not
    loop; and it has none exactly when, having read up to [r], it comes to an
    escape sequence in [Undefined]. *)
Theorem C60_total : forall s, Fits s ->
  (exists t, unescape s = Ok t) \/ unescape s = Throw YstringException \/ unescape s = UB.
Proof. exact p_c60_total. Qed.
Print Assumptions C60_total.
Theorem C60_undefined : forall s, Fits s -> (unescape s = UB <-> exists r t, Reads handled s r t /\ Undefined r).
Proof. exact p_c60_ub. Qed.
Print Assumptions C60_undefined.
(** Such texts exist: the property as stated is false. *)
Theorem C60_octal_refuted : unescape #"\0" = UB.
Proof. vm_compute. reflexivity. Qed.
Print Assumptions C60_octal_refuted.
Theorem C60_short_u_refuted : unescape #"\u12" = UB /\ unescape #"abc\U0001F60" = UB.
Proof. split; vm_compute; reflexivity. Qed.
Print Assumptions C60_short_u_refuted.
Theorem C60_large_x_refuted : unescape #"\x123456789 " = UB.
Proof. vm_compute. reflexivity. Qed.
Print Assumptions C60_large_x_refuted.

(** C61.  Each escape sequence is replaced by what it denotes; ... *)
Theorem C61_result : forall s t, Fits s -> (unescape s = Ok t <-> Reads handled s [] t).
Proof. exact p_c61_ok. Qed.
Print Assumptions C61_result.
(** ... it throws exactly when it comes to a text in [Rejected]. *)
Theorem C61_throws : forall s, Fits s ->
  (unescape s = Throw YstringException <-> exists r t, Reads handled s r t /\ Rejected r).
Proof. exact p_c61_throw. Qed.
Print Assumptions C61_throws.
(** Well-formed input that is rejected: the first half of a surrogate pair
    with an ordinary escape sequence six bytes later. *)
Theorem C61_obstructed_refuted :
  Reads (fun _ _ => True) #"\uD800abcde\n" [] ([xed; xa0; x80] ++ #"abcde" ++ [x0a]) /\
  unescape #"\uD800abcde\n" = Throw YstringException.
Proof.
  split; [|vm_compute; reflexivity].
  apply (reads_escape _ #"\uD800" 0xD800 [xed; xa0; x80] #"abcde\n").
  - apply den_lone.
    + reflexivity.
    + apply (num_snoc hex_digit 16 [x44; x38; x30] 0xD80 x30 0); [|left; split; reflexivity].
      apply (num_snoc hex_digit 16 [x44; x38] 0xD8 x30 0); [|left; split; reflexivity].
      apply (num_snoc hex_digit 16 [x44] 0xD x38 8); [|left; split; reflexivity].
      apply (num_snoc hex_digit 16 [] 0 x44 13); [constructor|right; left; repeat split; discriminate].
    + split; discriminate.
    + intros (ds & v & r' & E & _). discriminate E.
  - exact I.
  - left. split; [discriminate|vm_compute; reflexivity].
  - cbn [list_byte_of_string app]. repeat (apply reads_copy; [discriminate|]).
    apply (reads_escape _ [x5c; x6e] 0x0A [x0a] []); [apply den_letter; cbn; tauto|exact I| |constructor].
    left. split; [discriminate|vm_compute; reflexivity].
Qed.
Print Assumptions C61_obstructed_refuted.
(** Values above U+10FFFF disappear without an error. *)
Theorem C61_beyond_refuted : unescape #"a\U00110000b" = Ok #"ab".
Proof. vm_compute. reflexivity. Qed.
Print Assumptions C61_beyond_refuted.
Example C61_ex : unescape #"\x41\u00e6\uD83D\uDE00\101\n\q" = Ok [x41; xc3; xa6; xf0; x9f; x98; x80; x41; x0a; x71] /\
  unescape #"a\u12g4" = Throw YstringException.
Proof. split; vm_compute; reflexivity. Qed.

(** C62.  The buffer of the in-place function: the result, which is what the
    out-of-place function returns and is no longer than the input, and behind
    it the bytes of the input untouched. *)
Theorem C62_in_place : forall s t, Fits s -> unescape s = Ok t ->
  unescape_buf s = Ok (t ++ skipn (length t) s, size t) /\ (length t <= length s)%nat.
Proof. exact (fun s t HF E => buf_ok s t HF (proj1 (p_c61_ok s t HF) E)). Qed.
Print Assumptions C62_in_place.
Example C62_ex : unescape_buf #"a\tb\tc" = Ok ([x61; x09; x62; x09; x63] ++ #"tc", 5).
Proof. vm_compute. reflexivity. Qed.

(** C63.  Success shortens the view from the front; nothing is returned exactly
    when only backslash-newline pairs are left; ... *)
Theorem C63_view : forall s o s' b, unescape_next s = ((o, s'), b) ->
  (exists c, o = Ok (Some c) /\ exists g, g <> [] /\ s = g ++ s') \/
  (o = Ok None /\ s' = [] /\ exists k, s = concat (repeat escaped_newline k)) \/
  (o = Throw YstringException /\ exists k, s = concat (repeat escaped_newline k) ++ s').
Proof.
  intros s o s' b E. destruct (p_c63_view s o s' b E) as [H|[(H1 & H2 & k & H3)|(H1 & k & H2)]]; [now left| |];
  rewrite newlines_app in *; right; [left|right]; eauto.
Qed.
Print Assumptions C63_view.
(** ... so that after an exception the view is the old one or has lost such
    pairs: *)
Theorem C63_throw_refuted : unescape_next ([x5c; x0a] ++ #"\xg") = ((Throw YstringException, #"\xg"), Some true).
Proof. vm_compute. reflexivity. Qed.
Print Assumptions C63_throw_refuted.
Theorem C63_throw : forall s s' b, unescape_next s = ((Throw YstringException, s'), b) -> ~ starts_newline s -> s' = s.
Proof.
  intros s s' b E H. destruct (p_c63_view s _ s' b E) as [(c & H1 & _)|[(H1 & _)|(_ & k & H2)]]; try discriminate H1.
  destruct k as [|k]; [now symmetry|]. elim H. exists (newlines k ++ s'). rewrite H2. cbn [newlines]. now rewrite <- app_assoc.
Qed.
Print Assumptions C63_throw.
Example C63_ex : unescape_next #"\x41 b" = ((Ok (Some 0x41), #" b"), Some true) /\ unescape_next #"\u12" = ((Throw YstringException, #"\u12"), Some true).
Proof. split; vm_compute; reflexivity. Qed.

(** C75.  What [unescape_next] returns: the backslash-newline pairs at the front
    are skipped; then [NextChar] describes the character, and everything
    outside [NextChar] throws.  In particular its behaviour is always defined. *)
Theorem C75_next : forall k r, ~ starts_newline r ->
  let s := concat (repeat escaped_newline k) ++ r in
  (r = [] -> unescape_next s = ((Ok None, []), Some false)) /\
  (forall c r' b, NextChar r c r' b -> unescape_next s = ((Ok (Some c), r'), Some b)) /\
  (r <> [] -> (forall c r' b, ~ NextChar r c r' b) -> exists b, unescape_next s = ((Throw YstringException, r), b)).
Proof. intros k r. rewrite <- newlines_app. exact (p_c63 k r). Qed.
Print Assumptions C75_next.
Example C75_ex : unescape_next ([x5c; x0a] ++ #"\101z") = ((Ok (Some 0x41), #"z"), Some true) /\
  unescape_next #"\U0001F600" = ((Ok (Some 0x1F600), []), Some true) /\ unescape_next #"abc" = ((Ok (Some 0x61), #"bc"), Some false).
Proof. repeat split; vm_compute; reflexivity. Qed.

(** C64.  On texts whose escape sequences are understood alike ([common]),
    iterating yields exactly the code points of the unescaped text. *)
Theorem C64_agree_partial : forall s t, Fits s -> Reads common s [] t ->
  unescape s = Ok t /\ forall cs, Iterated s cs <-> Text t cs.
Proof. exact p_c64. Qed.
Print Assumptions C64_agree_partial.
(** There are no others: where both succeed they agree exactly on these texts, and
    never by chance on another one. *)
Theorem C64_exactly : forall s t cs, Fits s -> unescape s = Ok t -> Iterated s cs -> (Text t cs <-> Reads common s [] t).
Proof. exact p_c64_exact. Qed.
Print Assumptions C64_exactly.
Ltac iterate := repeat (eapply it_step; [vm_compute; reflexivity|]); eapply it_end; vm_compute; reflexivity.
Theorem C64_newline_refuted : unescape [x61; x5c; x0a; x62] = Ok [x61; x0a; x62] /\ Iterated [x61; x5c; x0a; x62] [0x61; 0x62].
Proof. split; [vm_compute; reflexivity|]. iterate. Qed.
Print Assumptions C64_newline_refuted.
Theorem C64_long_x_refuted : unescape #"\x0000000041" = Ok #"A" /\ Iterated #"\x0000000041" [0; 0x34; 0x31].
Proof. split; [vm_compute; reflexivity|]. iterate. Qed.
Print Assumptions C64_long_x_refuted.
Theorem C64_beyond_refuted : unescape #"\U00110000" = Ok [] /\ Iterated #"\U00110000" [0x110000].
Proof. split; [vm_compute; reflexivity|]. iterate. Qed.
Print Assumptions C64_beyond_refuted.
(** Texts only one of the two accepts. *)
Theorem C64_one_sided_refuted :
  (unescape [x5c; xc3; xa6] = Throw YstringException /\ Iterated [x5c; xc3; xa6] [0xE6]) /\
  (unescape #"\x4" = Throw YstringException /\ Iterated #"\x4" [4]).
Proof. split; (split; [vm_compute; reflexivity|]); iterate. Qed.
Print Assumptions C64_one_sided_refuted.
Example C64_ex : Reads common #"a\tb" [] [x61; x09; x62].
Proof. apply (JsonOf_common [x61; x09; x62]). repeat first [apply jof_nil | apply jof_copy; [unfold must_escape; cbn; intros [H|[H|H]]; discriminate|] | apply (jof_short x09 x74); [cbn; tauto|]]. Qed.

(** C65 *)
Theorem C65_iterate : forall s e cs, Fits s -> escape_json s = Ok e -> (Iterated e cs <-> Text s cs).
Proof. exact p_c65. Qed.
Print Assumptions C65_iterate.
Example C65_ex : Iterated #"a\""\u0001" [0x61; 0x22; 0x01].
Proof. iterate. Qed.

(** C74.  [find_first_escaped_char]: [pre] is the text before the offset and
    [lits] has no backslash.  Either there is none after it either, or [w]
    starts with one: a complete escape sequence is reported with its extent, a
    bad one throws, ... *)
Theorem C74_find : forall pre lits w, Fits (pre ++ lits ++ w) -> ~ In x5c lits ->
  (w = [] -> find_first_escaped_char (pre ++ lits ++ w) (size pre) = Ok (Sub (size (pre ++ lits)) 0)) /\
  (forall n, Extent w n -> find_first_escaped_char (pre ++ lits ++ w) (size pre) = Ok (Sub (size (pre ++ lits)) n) /\ n <= size w) /\
  (BadEscape w -> find_first_escaped_char (pre ++ lits ++ w) (size pre) = Throw YstringException) /\
  (forall n, Overhang w n -> find_first_escaped_char (pre ++ lits ++ w) (size pre) = Ok (Sub (size (pre ++ lits)) n) /\ size w < n).
Proof. exact p_c74. Qed.
Print Assumptions C74_find.
Theorem C74_cases : forall q, BadEscape (x5c :: q) \/ (exists n, Extent (x5c :: q) n) \/ (exists n, Overhang (x5c :: q) n).
Proof. exact escape_cases. Qed.
Print Assumptions C74_cases.
(** ... and one cut off by the end of the text is reported with a range that
    reaches beyond the text instead of an exception. *)
Theorem C74_overhang_refuted : find_first_escaped_char #"ab\u12" 0 = Ok (Sub 2 6) /\ size #"ab\u12" = 6.
Proof. split; vm_compute; reflexivity. Qed.
Print Assumptions C74_overhang_refuted.
Theorem C74_has : forall s, Fits s ->
  (has_escaped_chars s = Ok false <-> ~ In x5c s) /\
  (has_escaped_chars s = Throw YstringException <-> exists lits w, s = lits ++ w /\ ~ In x5c lits /\ BadEscape w) /\
  (has_escaped_chars s = Ok true <-> exists lits w n, s = lits ++ w /\ ~ In x5c lits /\ (Extent w n \/ Overhang w n)).
Proof. exact p_c74_has. Qed.
Print Assumptions C74_has.
Example C74_ex : find_first_escaped_char #"\tab\x41e5" 2 = Ok (Sub 4 6) /\ has_escaped_chars #"abc" = Ok false /\
  has_escaped_chars #"ab\c" = Ok true /\ has_escaped_chars #"ab\" = Throw YstringException.
Proof. repeat split; vm_compute; reflexivity. Qed.
