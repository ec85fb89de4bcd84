(** C121: pieces of pieces. *)
From Verif Require Import Base Spec.Utf8Spec Spec.Strings Spec.Slices Spec.Category Spec.Counts Model.Decode Model.Encode Model.Subrange Model.Search
  Model.CharClass Model.Chars Proofs.SliceLemmas Proofs.CharLemmas Proofs.AgreeLemmas Proofs.NestedLemmas.

(** C121.  A piece of a piece is a piece, counted from the start.  (By code points
    for any bytes up to 4 GiB and texts of any size, by characters for texts.) *)
Theorem C121_nested : forall s i j k l, Fits s -> size s < 0xFFFFFFFF \/ (exists cs, Text s cs) ->
  (0 <= i <= 0x7FFFFFFFFFFFFFFF)%Z -> (0 <= j <= 0x7FFFFFFFFFFFFFFF)%Z -> (0 <= k <= 0x7FFFFFFFFFFFFFFF)%Z -> (0 <= l <= 0x7FFFFFFFFFFFFFFF)%Z -> exists t r,
  get_codepoint_substring s i j = Ok t /\ get_codepoint_substring t k l = Ok r /\ get_codepoint_substring s (Z.min (i + k) j) (Z.min (i + l) j) = Ok r.
Proof. exact (fun s i j k l F H => p_c121_nested s i j k l (conj F H)). Qed.
Print Assumptions C121_nested.
Theorem C121_nested_chars : forall s cs i j k l, Text s cs -> Fits s ->
  (0 <= i <= 0x7FFFFFFFFFFFFFFF)%Z -> (0 <= j <= 0x7FFFFFFFFFFFFFFF)%Z -> (0 <= k <= 0x7FFFFFFFFFFFFFFF)%Z -> (0 <= l <= 0x7FFFFFFFFFFFFFFF)%Z -> exists t r,
  get_char_substring s i j = Ok t /\ get_char_substring t k l = Ok r /\ get_char_substring s (Z.min (i + k) j) (Z.min (i + l) j) = Ok r.
Proof. exact p_c121_nested_chars. Qed.
Print Assumptions C121_nested_chars.

(** Two adjacent pieces put together. *)
Theorem C121_adjacent : forall s i j k, Fits s -> size s < 0xFFFFFFFF \/ (exists cs, Text s cs) ->
  (- 0x8000000000000000 < i <= 0x7FFFFFFFFFFFFFFF)%Z -> (- 0x8000000000000000 < j <= 0x7FFFFFFFFFFFFFFF)%Z -> (- 0x8000000000000000 < k <= 0x7FFFFFFFFFFFFFFF)%Z ->
  (0 <= i <= j /\ j <= k)%Z \/ (i < j /\ j < k < 0)%Z -> exists a b,
  get_codepoint_substring s i j = Ok a /\ get_codepoint_substring s j k = Ok b /\ get_codepoint_substring s i k = Ok (a ++ b).
Proof. exact (fun s i j k F H => p_c121_adjacent s i j k (conj F H)). Qed.
Print Assumptions C121_adjacent.
Theorem C121_adjacent_chars : forall s cs i j k, Text s cs -> Fits s ->
  (- 0x8000000000000000 <= i <= 0x7FFFFFFFFFFFFFFF)%Z -> (- 0x8000000000000000 <= j <= 0x7FFFFFFFFFFFFFFF)%Z -> (- 0x8000000000000000 <= k <= 0x7FFFFFFFFFFFFFFF)%Z ->
  (0 <= i <= j /\ j <= k)%Z \/ (i < j /\ j < k < 0)%Z -> exists a b,
  get_char_substring s i j = Ok a /\ get_char_substring s j k = Ok b /\ get_char_substring s i k = Ok (a ++ b).
Proof. exact p_c121_adjacent_chars. Qed.
Print Assumptions C121_adjacent_chars.

(** Counting from the end is counting from the start: index [i - n] is index [i]
    if there are [n] of them (for the sign combinations of C26 and C27). *)
Theorem C121_from_end : forall s n i j, Fits s -> size s < 0xFFFFFFFF \/ (exists cs, Text s cs) -> count_codepoints s = Ok n ->
  (0 <= i)%Z -> (0 <= j)%Z -> (i <= 0x7FFFFFFFFFFFFFFF)%Z ->
  (i < j < Z.of_N n -> get_codepoint_substring s (i - Z.of_N n) (j - Z.of_N n) = get_codepoint_substring s i j)%Z /\
  (j < Z.of_N n -> get_codepoint_substring s i (j - Z.of_N n) = get_codepoint_substring s i j)%Z /\
  (i < Z.of_N n -> get_codepoint_substring s (i - Z.of_N n) 0x7FFFFFFFFFFFFFFF = get_codepoint_substring s i 0x7FFFFFFFFFFFFFFF)%Z.
Proof. exact (fun s n i j F H => p_c121_from_end s n i j (conj F H)). Qed.
Print Assumptions C121_from_end.
Theorem C121_from_end_chars : forall s cs n i j, Text s cs -> Fits s -> count_chars s = Ok n -> (0 <= i)%Z -> (0 <= j <= 0x7FFFFFFFFFFFFFFF)%Z ->
  (i < j < Z.of_N n -> get_char_substring s (i - Z.of_N n) (j - Z.of_N n) = get_char_substring s i j)%Z /\
  (i < Z.of_N n -> get_char_substring s (i - Z.of_N n) j = get_char_substring s i j)%Z.
Proof. exact p_c121_from_end_chars. Qed.
Print Assumptions C121_from_end_chars.

(** A piece of two texts put together is a piece of the first and a piece of the
    second; by characters if the second does not start with a combining mark. *)
Theorem C121_concat : forall s cs t ts n i j, Text s cs -> Text t ts -> Fits (s ++ t) -> count_codepoints s = Ok n ->
  (0 <= i <= 0x7FFFFFFFFFFFFFFF)%Z -> (0 <= j <= 0x7FFFFFFFFFFFFFFF)%Z -> exists a b,
  get_codepoint_substring s i j = Ok a /\ get_codepoint_substring t (Z.max 0 (i - Z.of_N n)) (Z.max 0 (j - Z.of_N n)) = Ok b /\
  get_codepoint_substring (s ++ t) i j = Ok (a ++ b).
Proof. exact p_c121_concat. Qed.
Print Assumptions C121_concat.
Theorem C121_concat_chars : forall s cs t ts n i j, Text s cs -> Text t ts -> (forall d ds, ts = d :: ds -> combining d = false) ->
  Fits (s ++ t) -> count_chars s = Ok n -> (0 <= i <= 0x7FFFFFFFFFFFFFFF)%Z -> (0 <= j <= 0x7FFFFFFFFFFFFFFF)%Z -> exists a b,
  get_char_substring s i j = Ok a /\ get_char_substring t (Z.max 0 (i - Z.of_N n)) (Z.max 0 (j - Z.of_N n)) = Ok b /\
  get_char_substring (s ++ t) i j = Ok (a ++ b).
Proof. exact p_c121_concat_chars. Qed.
Print Assumptions C121_concat_chars.
(** Positions in the second text are moved by the first. *)
Theorem C121_position : forall s cs t ts n k p, Text s cs -> Text t ts -> Fits (s ++ t) -> count_codepoints s = Ok n -> (0 <= k)%Z ->
  get_codepoint_pos t k = Ok p -> p <> npos -> (- 0x8000000000000000 < k <= 0x7FFFFFFFFFFFFFFF)%Z -> get_codepoint_pos (s ++ t) (Z.of_N n + k) = Ok (size s + p).
Proof. exact p_c121_position. Qed.
Print Assumptions C121_position.
Theorem C121_position_chars : forall s cs t ts n k p, Text s cs -> Text t ts -> (forall d ds, ts = d :: ds -> combining d = false) ->
  Fits (s ++ t) -> count_chars s = Ok n -> (0 <= k)%Z ->
  get_char_pos t k = Ok p -> p <> npos -> get_char_pos (s ++ t) (Z.of_N n + k) = Ok (size s + p).
Proof. exact p_c121_position_chars. Qed.
Print Assumptions C121_position_chars.

(** 'a' U+0301 U+00E9 'b' 'c': five code points, four characters. *)
Example C121_ex : let s := [x61; xcc; x81; xc3; xa9; x62; x63] in
  count_codepoints s = Ok 5 /\ count_chars s = Ok 4 /\
  get_codepoint_substring s 1 4 = Ok [xcc; x81; xc3; xa9; x62] /\ get_codepoint_substring [xcc; x81; xc3; xa9; x62] 1 9 = Ok [xc3; xa9; x62] /\
  get_codepoint_substring s 2 4 = Ok [xc3; xa9; x62] /\
  get_char_substring s 0 3 = Ok [x61; xcc; x81; xc3; xa9; x62] /\ get_char_substring [x61; xcc; x81; xc3; xa9; x62] 1 2 = Ok [xc3; xa9] /\
  get_char_substring s 1 2 = Ok [xc3; xa9] /\ get_char_substring s (-3) (-2) = Ok [xc3; xa9].
Proof. vm_compute. repeat split. Qed.
(** A mark at the beginning of the second text joins the last character of the first. *)
Example C121_mark : get_char_substring [x61] 0 1 = Ok [x61] /\ get_char_substring [xcc; x81] 0 0 = Ok [] /\
  get_char_substring ([x61] ++ [xcc; x81]) 0 1 = Ok [x61; xcc; x81] /\ combining 0x301 = true.
Proof. vm_compute. repeat split. Qed.
