(** Conversions and the functions that take texts apart can be swapped.  C114 - C116. *)
From Verif Require Import Base Spec.Category Spec.UnicodeData Spec.Utf8Spec Spec.Strings Spec.Newline Spec.Slices Spec.Counts Spec.Normalization Spec.Commute
  Model.Decode Model.Encode Model.Subrange Model.Search Model.Split Model.CharClass Model.ConvertCase Model.Chars Model.Normalize
  Model.CaseInsensitive Proofs.CommuteCase Proofs.CommuteProps Proofs.CommuteBoth Proofs.CommuteExact.
From Verif Require Proofs.CommuteNorm.

(** C114.  Here [F] is to_lower or to_upper and [f] what it makes of a code
    point; [respects f chars] says that separators, and nothing else, become
    separators. *)
Theorem C114_split_chars : forall F f s t chars n ign, case_conversion F f -> respects f chars -> F s = Ok t -> Fits s -> Fits t ->
  exists ps qs, split_chars s chars n ign = Ok ps /\ split_chars t chars n ign = Ok qs /\ each F ps qs.
Proof. exact q_split_chars. Qed.
Print Assumptions C114_split_chars.

Theorem C114_trim : forall F f s t chars, case_conversion F f -> respects f chars -> F s = Ok t -> Fits s -> Fits t ->
  swaps F (fun x => trim_start x chars) s t /\ swaps F (fun x => trim_end x chars) s t /\ swaps F (fun x => trim x chars) s t.
Proof. exact q_trim. Qed.
Print Assumptions C114_trim.

(** For to_title the separators must not be letters: one that is would end a word. *)
Theorem C114_title_split : forall s t chars n ign, Forall (fun c => is_letter c = false) chars -> to_title_str s = Ok t -> Fits s -> Fits t ->
  exists ps qs, split_chars s chars n ign = Ok ps /\ split_chars t chars n ign = Ok qs /\ each to_title_str ps qs.
Proof. exact q_title_split. Qed.
Print Assumptions C114_title_split.

Theorem C114_title_trim : forall s t chars, Forall (fun c => is_letter c = false) chars -> to_title_str s = Ok t -> Fits s -> Fits t ->
  swaps to_title_str (fun x => trim_start x chars) s t /\ swaps to_title_str (fun x => trim_end x chars) s t /\ swaps to_title_str (fun x => trim x chars) s t.
Proof. exact q_title_trim. Qed.
Print Assumptions C114_title_trim.

Theorem C114_lines : forall F f after s t n ign, case_conversion F f -> F s = Ok t -> Fits s -> Fits t ->
  exists ps qs, split_lines (0 :: after) s n ign = Ok ps /\ split_lines (0 :: after) t n ign = Ok qs /\ each F ps qs.
Proof. exact q_lines. Qed.
Print Assumptions C114_lines.

Theorem C114_split_separator : forall F f s cs t sep seps n ign, case_conversion F f ->
  Encoded s cs -> Forall (fun c => c <= 0x10FFFF) cs -> F s = Ok t ->
  Forall caseless seps -> Encoded sep seps -> Forall (fun c => c <= 0x10FFFF) seps -> sep <> [] ->
  Fits s -> Fits t -> exists ps qs, split_sep s sep n ign = Ok ps /\ split_sep t sep n ign = Ok qs /\ each F ps qs.
Proof. exact q_split_sep. Qed.
Print Assumptions C114_split_separator.

Theorem C114_join : forall F f l l' d d', case_conversion F f -> each F l l' -> F d = Ok d' -> F (join l d) = Ok (join l' d').
Proof. exact q_join. Qed.
Print Assumptions C114_join.

Theorem C114_lower : forall s t, to_lower_str s = Ok t -> Fits s -> Fits t -> swaps to_lower_str reverse s t /\
  (forall i j, char_range i j -> swaps to_lower_str (fun x => get_char_substring x i j) s t) /\
  forall i j, codepoint_range i j -> swaps to_lower_str (fun x => get_codepoint_substring x i j) s t.
Proof. exact q_lower. Qed.
Print Assumptions C114_lower.

(** U+00DF becomes two characters, and the mark U+0345 a letter. *)
Theorem C114_upper : forall s cs t, to_upper_str s = Ok t -> Text s cs -> ~ In 0xDF cs -> Fits s -> Fits t ->
  (~ In 0x345 cs -> swaps to_upper_str reverse s t /\ forall i j, char_range i j -> swaps to_upper_str (fun x => get_char_substring x i j) s t) /\
  forall i j, codepoint_range i j -> swaps to_upper_str (fun x => get_codepoint_substring x i j) s t.
Proof. exact q_upper. Qed.
Print Assumptions C114_upper.

(** Which separators can be used: everything but letters, marks, letter-like
    numbers and other symbols, judged by the Unicode categories, is caseless, and
    so are the newlines; any set of caseless code points is respected. *)
Theorem C114_separators :
  (forall F f chars, case_conversion F f -> Forall caseless chars -> respects f chars) /\
  (forall c, ~ In (category_of c) [Lu; Ll; Lt; Lm; Lo; Mn; Mc; Me; Nl; So] -> caseless c) /\
  (forall c, newline c -> caseless c).
Proof. exact (conj caseless_respects (conj p_caseless newline_caseless)). Qed.
Print Assumptions C114_separators.

(** "aß, É" split at ',' ; a Kelvin sign (U+212A) becomes the separator 'k'; the
    exceptions of C114_upper. *)
Example C114_ex :
  respects upper_of [0x2C] /\
  to_upper_str [x61; xc3; x9f; x2c; xc3; xa9] = Ok [x41; x53; x53; x2c; xc3; x89] /\
  split_chars [x61; xc3; x9f; x2c; xc3; xa9] [0x2C] SIZE_MAX false = Ok [[x61; xc3; x9f]; [xc3; xa9]] /\
  split_chars [x41; x53; x53; x2c; xc3; x89] [0x2C] SIZE_MAX false = Ok [[x41; x53; x53]; [xc3; x89]] /\
  each to_upper_str [[x61; xc3; x9f]; [xc3; xa9]] [[x41; x53; x53]; [xc3; x89]] /\
  char_range 1 3 /\ codepoint_range 0 (0x7FFFFFFFFFFFFFFF).
Proof.
  split; [|split; [|split; [|split; [|split]]]].
  - apply (caseless_respects to_upper_str); [constructor|]. apply Forall_cons; [|constructor]. apply p_caseless.
    change (category_of 0x2C) with Po. intros H. cbn in H. repeat destruct H as [H|H]; discriminate || contradiction.
  - now vm_compute.
  - now vm_compute.
  - now vm_compute.
  - apply Forall2_cons; [now vm_compute|]. apply Forall2_cons; [now vm_compute|]. constructor.
  - unfold char_range, codepoint_range, index. repeat split; try easy; left; split; easy.
Qed.
Example C114_exceptions_needed :
  (* split at 'k': "aKb" with the Kelvin sign is one part, in lower case two *)
  split_chars [x61; xe2; x84; xaa; x62] [0x6B] SIZE_MAX false = Ok [[x61; xe2; x84; xaa; x62]] /\
  to_lower_str [x61; xe2; x84; xaa; x62] = Ok [x61; x6b; x62] /\
  split_chars [x61; x6b; x62] [0x6B] SIZE_MAX false = Ok [[x61]; [x62]] /\
  (* reverse "ß" U+0301 *)
  to_upper_str [xc3; x9f; xcc; x81] = Ok [x53; x53; xcc; x81] /\ reverse [xc3; x9f; xcc; x81] = Ok [xc3; x9f; xcc; x81] /\
  reverse [x53; x53; xcc; x81] = Ok [x53; xcc; x81; x53] /\
  (* reverse "a" U+0345 *)
  to_upper_str [x61; xcd; x85] = Ok [x41; xce; x99] /\ reverse [x61; xcd; x85] = Ok [x61; xcd; x85] /\ reverse [x41; xce; x99] = Ok [xce; x99; x41] /\
  (* to_title and reverse: "ab c" *)
  to_title_str [x61; x62] = Ok [x41; x62] /\ reverse [x41; x62] = Ok [x62; x41] /\ to_title_str [x62; x61] = Ok [x42; x61].
Proof. vm_compute. repeat split. Qed.

(** C115.  [inner] bounds the number of rounds of a loop, as in C67. *)
Theorem C115_concat : forall inner s t a b, to_decomposed inner s = Ok a -> to_decomposed inner t = Ok b -> to_decomposed inner (s ++ t) = Ok (a ++ b).
Proof. exact CommuteNorm.p_c115_concat. Qed.
Print Assumptions C115_concat.

Theorem C115_join : forall inner l l' d d', each (to_decomposed inner) l l' -> to_decomposed inner d = Ok d' ->
  to_decomposed inner (join l d) = Ok (join l' d').
Proof. exact q_norm_join. Qed.
Print Assumptions C115_join.

Theorem C115_split_chars : forall inner s t chars n ign, undecomposed chars -> to_decomposed inner s = Ok t -> Fits s -> Fits t ->
  exists ps qs, split_chars s chars n ign = Ok ps /\ split_chars t chars n ign = Ok qs /\ each (to_decomposed inner) ps qs.
Proof. exact CommuteNorm.p_c115_split_chars. Qed.
Print Assumptions C115_split_chars.

Theorem C115_trim : forall inner s t chars, undecomposed chars -> to_decomposed inner s = Ok t -> Fits s -> Fits t ->
  swaps (to_decomposed inner) (fun x => trim_start x chars) s t /\ swaps (to_decomposed inner) (fun x => trim_end x chars) s t /\
  swaps (to_decomposed inner) (fun x => trim x chars) s t.
Proof. exact q_norm_trim. Qed.
Print Assumptions C115_trim.

Theorem C115_lines : forall inner after s t n ign, to_decomposed inner s = Ok t -> Fits s -> Fits t ->
  exists ps qs, split_lines (0 :: after) s n ign = Ok ps /\ split_lines (0 :: after) t n ign = Ok qs /\ each (to_decomposed inner) ps qs.
Proof. exact CommuteNorm.p_c115_lines. Qed.
Print Assumptions C115_lines.

Theorem C115_split_separator : forall inner s cs t sep seps n ign, undecomposed seps -> Encoded s cs -> Forall (fun c => c <= 0x10FFFF) cs ->
  Encoded sep seps -> Forall (fun c => c <= 0x10FFFF) seps -> sep <> [] -> to_decomposed inner s = Ok t -> Fits s -> Fits t ->
  exists ps qs, split_sep s sep n ign = Ok ps /\ split_sep t sep n ign = Ok qs /\ each (to_decomposed inner) ps qs.
Proof. exact CommuteNorm.p_c115_split_sep. Qed.
Print Assumptions C115_split_separator.

(** The newlines, and every ASCII character but letters and '<', '=', '>'. *)
Theorem C115_separators : forall chars,
  Forall (fun c => newline c \/ c < 0x80 /\ ~ (0x3C <= c <= 0x3E \/ 0x41 <= c <= 0x5A \/ 0x61 <= c <= 0x7A)) chars -> undecomposed chars.
Proof. exact CommuteNorm.p_undecomposed. Qed.
Print Assumptions C115_separators.

(** The number of characters grows by one for each U+16D68 and U+16D69 and by two for each U+16D6A. *)
Theorem C115_count : forall inner s t, to_decomposed inner s = Ok t -> Fits s -> Fits t -> exists cs k, Text s cs /\ count_chars s = Ok k /\
  count_chars t = Ok (k + times 0x16D68 cs + times 0x16D69 cs + 2 * times 0x16D6A cs).
Proof. exact CommuteNorm.p_c115_count. Qed.
Print Assumptions C115_count.

Theorem C115_chars : forall inner s cs t, Text s cs -> Forall (fun c => ~ several c) cs -> to_decomposed inner s = Ok t -> Fits s -> Fits t ->
  swaps (to_decomposed inner) reverse s t /\ forall i j, char_range i j -> swaps (to_decomposed inner) (fun x => get_char_substring x i j) s t.
Proof. exact q_norm_chars. Qed.
Print Assumptions C115_chars.

(** U+1EAD ',' U+00E9; U+2260 and '='; U+16D68 *)
Example C115_ex :
  to_decomposed 0 [xe1; xba; xad; x2c; xc3; xa9] = Ok [x61; xcc; xa3; xcc; x82; x2c; x65; xcc; x81] /\
  split_chars [xe1; xba; xad; x2c; xc3; xa9] [0x2C] SIZE_MAX false = Ok [[xe1; xba; xad]; [xc3; xa9]] /\
  split_chars [x61; xcc; xa3; xcc; x82; x2c; x65; xcc; x81] [0x2C] SIZE_MAX false = Ok [[x61; xcc; xa3; xcc; x82]; [x65; xcc; x81]] /\
  reverse [xe1; xba; xad; x2c; xc3; xa9] = Ok [xc3; xa9; x2c; xe1; xba; xad] /\
  reverse [x61; xcc; xa3; xcc; x82; x2c; x65; xcc; x81] = Ok [x65; xcc; x81; x2c; x61; xcc; xa3; xcc; x82].
Proof. vm_compute. repeat split. Qed.
Example C115_exceptions_needed :
  to_decomposed 0 [xe2; x89; xa0] = Ok [x3d; xcc; xb8] /\
  split_chars [xe2; x89; xa0] [0x3D] SIZE_MAX false = Ok [[xe2; x89; xa0]] /\
  split_chars [x3d; xcc; xb8] [0x3D] SIZE_MAX false = Ok [[]; [xcc; xb8]] /\
  to_decomposed 0 [xf0; x96; xb5; xa8] = Ok [xf0; x96; xb5; xa7; xf0; x96; xb5; xa7] /\
  count_chars [xf0; x96; xb5; xa8] = Ok 1 /\ count_chars [xf0; x96; xb5; xa7; xf0; x96; xb5; xa7] = Ok 2.
Proof. vm_compute. repeat split. Qed.

(** C116.  Converting the case of the canonical decomposition, and decomposing
    the text with its case converted, give the same string. *)
Theorem C116_lower : forall inner s cs d l, Text s cs -> Forall (fun c => ~ In c lower_exceptions) cs ->
  to_decomposed inner s = Ok d -> to_lower_str s = Ok l -> exists r, to_lower_str d = Ok r /\ to_decomposed inner l = Ok r.
Proof. exact (fun inner s cs d l => both_agree inner _ _ _ s cs d l lower_conversion lower_exc). Qed.
Print Assumptions C116_lower.

Theorem C116_upper : forall inner s cs d u, Text s cs -> Forall (fun c => ~ In c upper_exceptions) cs ->
  to_decomposed inner s = Ok d -> to_upper_str s = Ok u -> exists r, to_upper_str d = Ok r /\ to_decomposed inner u = Ok r.
Proof. exact (fun inner s cs d u => both_agree inner _ _ _ s cs d u upper_conversion upper_exc). Qed.
Print Assumptions C116_upper.

(** No code point is excepted needlessly. *)
Theorem C116_lower_exceptions : forall inner s c d l, Text s [c] -> In c lower_exceptions ->
  to_decomposed inner s = Ok d -> to_lower_str s = Ok l -> exists a b, to_lower_str d = Ok a /\ to_decomposed inner l = Ok b /\ a <> b.
Proof. exact (fun inner s c d l => both_differ inner _ _ _ s c d l lower_conversion lower_exc). Qed.
Print Assumptions C116_lower_exceptions.

Theorem C116_upper_exceptions : forall inner s c d u, Text s [c] -> In c upper_exceptions ->
  to_decomposed inner s = Ok d -> to_upper_str s = Ok u -> exists a b, to_upper_str d = Ok a /\ to_decomposed inner u = Ok b /\ a <> b.
Proof. exact (fun inner s c d u => both_differ inner _ _ _ s c d u upper_conversion upper_exc). Qed.
Print Assumptions C116_upper_exceptions.

(** A text with an excepted code point never comes out right by chance. *)
Theorem C116_lower_exactly : forall inner s cs d l, Text s cs -> to_decomposed inner s = Ok d -> to_lower_str s = Ok l ->
  (to_lower_str d = to_decomposed inner l <-> Forall (fun c => ~ In c lower_exceptions) cs).
Proof. exact p_c116_lower. Qed.
Print Assumptions C116_lower_exactly.
Theorem C116_upper_exactly : forall inner s cs d u, Text s cs -> to_decomposed inner s = Ok d -> to_upper_str s = Ok u ->
  (to_upper_str d = to_decomposed inner u <-> Forall (fun c => ~ In c upper_exceptions) cs).
Proof. exact p_c116_upper. Qed.
Print Assumptions C116_upper_exactly.

(** Texts that are equal but for case have decompositions that are equal but for case. *)
Theorem C116_equal : forall inner s t a b, ci_equal s t = Ok true -> to_decomposed inner s = Ok a -> to_decomposed inner t = Ok b -> ci_equal a b = Ok true.
Proof. exact both_equal. Qed.
Print Assumptions C116_equal.

(** U+00C9 'x' U+1E69; U+0130; U+01F0 *)
Example C116_ex :
  to_decomposed 0 [xc3; x89; x78; xe1; xb9; xa9] = Ok [x45; xcc; x81; x78; x73; xcc; xa3; xcc; x87] /\
  to_lower_str [xc3; x89; x78; xe1; xb9; xa9] = Ok [xc3; xa9; x78; xe1; xb9; xa9] /\
  to_lower_str [x45; xcc; x81; x78; x73; xcc; xa3; xcc; x87] = Ok [x65; xcc; x81; x78; x73; xcc; xa3; xcc; x87] /\
  to_decomposed 0 [xc3; xa9; x78; xe1; xb9; xa9] = Ok [x65; xcc; x81; x78; x73; xcc; xa3; xcc; x87] /\
  ci_equal [xc3; x89; x78; xe1; xb9; xa9] [xc3; xa9; x58; xe1; xb9; xa8] = Ok true.
Proof. vm_compute. repeat split. Qed.
Example C116_exceptions_ex :
  to_decomposed 0 [xc4; xb0] = Ok [x49; xcc; x87] /\ to_lower_str [xc4; xb0] = Ok [x69] /\
  to_lower_str [x49; xcc; x87] = Ok [x69; xcc; x87] /\ to_decomposed 0 [x69] = Ok [x69] /\
  to_decomposed 0 [xc7; xb0] = Ok [x6a; xcc; x8c] /\ to_upper_str [xc7; xb0] = Ok [xc7; xb0] /\ to_upper_str [x6a; xcc; x8c] = Ok [x4a; xcc; x8c].
Proof. vm_compute. repeat split. Qed.
(** Not so for to_title: a mark is no letter, so what follows it starts a word.  U+00E9 'a' *)
Example C116_not_title :
  to_title_str [xc3; xa9; x61] = Ok [xc3; x89; x61] /\ to_decomposed 0 [xc3; x89; x61] = Ok [x45; xcc; x81; x61] /\
  to_decomposed 0 [xc3; xa9; x61] = Ok [x65; xcc; x81; x61] /\ to_title_str [x65; xcc; x81; x61] = Ok [x45; xcc; x81; x41].
Proof. vm_compute. repeat split. Qed.
