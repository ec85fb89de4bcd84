(** Edits by index: what they leave where, and undoing them.  C103. *)
From Verif Require Import Base Spec.Utf8Spec Spec.Strings Spec.Slices Model.Decode Model.Encode Model.Subrange Model.Search
  Model.CharClass Model.Chars Proofs.SliceLemmas Proofs.CharLemmas Proofs.AgreeLemmas Proofs.UndoLemmas
  Spec.Safety Proofs.SelfReplace.

(** C103.  The two parts at any index make up the string (valid or not). *)
Theorem C103_parts : forall s k, Fits s -> size s < 0xFFFFFFFF \/ (exists cs, Text s cs) ->
  (- 0x8000000000000000 < k <= 0x7FFFFFFFFFFFFFFF)%Z -> exists u v,
  get_codepoint_substring s 0 k = Ok u /\ get_codepoint_substring s k 0x7FFFFFFFFFFFFFFF = Ok v /\ s = u ++ v.
Proof. exact (fun s k F H => p_c103_parts s k (conj F H)). Qed.
Print Assumptions C103_parts.
Theorem C103_parts_chars : forall s cs k, Text s cs -> Fits s -> (- 0x8000000000000000 <= k <= 0x7FFFFFFFFFFFFFFF)%Z -> exists u v,
  get_char_substring s 0 k = Ok u /\ get_char_substring s k 0x7FFFFFFFFFFFFFFF = Ok v /\ s = u ++ v.
Proof. exact p_c103_parts_chars_all. Qed.
Print Assumptions C103_parts_chars.

(** Replacing a slice by itself changes nothing. *)
Theorem C103_replace_by_itself : forall s i j, Fits s -> size s < 0xFFFFFFFF \/ (exists cs, Text s cs) ->
  (- 0x8000000000000000 < i <= 0x7FFFFFFFFFFFFFFF)%Z -> (- 0x8000000000000000 < j <= 0x7FFFFFFFFFFFFFFF)%Z ->
  (0 <= i /\ 0 <= j)%Z \/ (i < j < 0)%Z \/ (j < 0 <= i)%Z -> exists g,
  get_codepoint_substring s i j = Ok g /\ replace_codepoints s i j g = Ok s.
Proof. exact (fun s i j F H => p_c103_self s i j (conj F H)). Qed.
Print Assumptions C103_replace_by_itself.
Theorem C103_replace_by_itself_chars : forall s cs i j, Text s cs -> Fits s ->
  (- 0x8000000000000000 <= i <= 0x7FFFFFFFFFFFFFFF)%Z -> (- 0x8000000000000000 <= j <= 0x7FFFFFFFFFFFFFFF)%Z ->
  (0 <= i /\ 0 <= j)%Z \/ (i < j < 0)%Z \/ (i < 0 <= j)%Z -> exists g,
  get_char_substring s i j = Ok g /\ replace_chars s i j g = Ok s.
Proof. exact p_c103_self_chars. Qed.
Print Assumptions C103_replace_by_itself_chars.
(** The same for any bytes, whatever the slice is, with indices in any order: only
    the two combinations of signs are excluded for which the slice is wrong
    (C27, C30), ... *)
Theorem C103_replace_by_itself_any : forall s i j g, Fits s -> index i -> index j -> ~ (i < 0 <= j)%Z ->
  get_codepoint_substring s i j = Ok g -> replace_codepoints s i j g = Ok s.
Proof. exact p_c103_any. Qed.
Print Assumptions C103_replace_by_itself_any.
Theorem C103_replace_by_itself_chars_any : forall s i j g, Fits s -> index i -> index j -> ~ (j < 0 <= i)%Z ->
  get_char_substring s i j = Ok g -> replace_chars s i j g = Ok s.
Proof. exact p_c103_any_chars. Qed.
Print Assumptions C103_replace_by_itself_chars_any.
(** ... as in the second line of each of these. *)
Example C103_any_ex :
  (get_codepoint_substring [x61; xff; x63; x64] (-1) (-3) = Ok [x61; xff; x63] /\
   get_codepoint_substring [x61; x62; x63; x64] (-2) 3 = Ok [x63; x64] /\ replace_codepoints [x61; x62; x63; x64] (-2) 3 [x63; x64] = Throw StdOutOfRange) /\
  (get_char_substring [x61; x62; x63; x64] (-2) (-2) = Ok [x61; x62] /\
   get_char_substring [x61; x62; x63; x64] 3 (-2) = Ok [x64] /\
   replace_chars [x61; x62; x63; x64] 3 (-2) [x64] = Ok [x61; x62; x63; x64; x61; x62; x63; x64]).
Proof. vm_compute. repeat split; reflexivity. Qed.

(** An inserted text of m code points is found at its index, the number of code
    points grows by m, and deleting the m code points gives the string back. *)
Theorem C103_insert : forall s cs t ts k, Text s cs -> Text t ts -> Fits (s ++ t) -> (0 <= k <= Z.of_nat (length cs))%Z -> exists r,
  insert_codepoints s k t = Ok r /\ count_codepoints r = Ok (N.of_nat (length cs + length ts)) /\
  get_codepoint_substring r k (k + Z.of_nat (length ts)) = Ok t /\ replace_codepoints r k (k + Z.of_nat (length ts)) [] = Ok s.
Proof. exact p_c103_insert. Qed.
Print Assumptions C103_insert.
Theorem C103_insert_from_end : forall s cs t ts k, Text s cs -> Text t ts -> Fits (s ++ t) -> ts <> [] -> (- Z.of_nat (length cs) <= k < 0)%Z ->
  exists r,
  insert_codepoints s k t = Ok r /\ count_codepoints r = Ok (N.of_nat (length cs + length ts)) /\
  get_codepoint_substring r (k - Z.of_nat (length ts)) k = Ok t /\ replace_codepoints r (k - Z.of_nat (length ts)) k [] = Ok s.
Proof. exact p_c103_insert_end. Qed.
Print Assumptions C103_insert_from_end.
Theorem C103_insert_codepoint : forall s cs k c, Text s cs -> Fits s -> c <= 0x10FFFF -> (0 <= k <= Z.of_nat (length cs))%Z -> exists r g,
  insert_codepoint s k c = Ok r /\ get_codepoint r k = Ok (g, c).
Proof. exact p_c103_get. Qed.
Print Assumptions C103_insert_codepoint.

(** Replacing, and putting the old slice back. *)
Theorem C103_replace : forall s cs t ts i j, Text s cs -> Text t ts -> Fits (s ++ t) -> (0 <= i <= j)%Z -> (j <= Z.of_nat (length cs))%Z ->
  exists old r,
  get_codepoint_substring s i j = Ok old /\ replace_codepoints s i j t = Ok r /\
  get_codepoint_substring r i (i + Z.of_nat (length ts)) = Ok t /\ replace_codepoints r i (i + Z.of_nat (length ts)) old = Ok s.
Proof. exact p_c103_replace. Qed.
Print Assumptions C103_replace.
(** By characters, provided that the new characters [qs] do not melt with the
    neighbouring ones: [l1 ++ qs ++ l3] are still the characters of the result. *)
Theorem C103_replace_chars : forall l1 l2 l3 qs, Characters is_mark (l1 ++ l2 ++ l3) -> Characters is_mark (l1 ++ qs ++ l3) ->
  Fits (concat (l1 ++ l2 ++ l3)) -> Fits (concat (l1 ++ qs ++ l3)) ->
  let i := Z.of_nat (length l1) in let j := Z.of_nat (length l1 + length l2) in let j' := Z.of_nat (length l1 + length qs) in
  exists old r, get_char_substring (concat (l1 ++ l2 ++ l3)) i j = Ok old /\ replace_chars (concat (l1 ++ l2 ++ l3)) i j (concat qs) = Ok r /\
    get_char_substring r i j' = Ok (concat qs) /\ replace_chars r i j' old = Ok (concat (l1 ++ l2 ++ l3)).
Proof. exact p_c103_replace_chars. Qed.
Print Assumptions C103_replace_chars.
Example C103_ex : insert_codepoints [x61; xc3; xa9] 1 [xc3; xa6; x7a] = Ok [x61; xc3; xa6; x7a; xc3; xa9] /\
  get_codepoint_substring [x61; xc3; xa6; x7a; xc3; xa9] 1 3 = Ok [xc3; xa6; x7a] /\
  replace_codepoints [x61; xc3; xa6; x7a; xc3; xa9] 1 3 [] = Ok [x61; xc3; xa9] /\
  replace_codepoints [x61; xc3; xa6; x7a; xc3; xa9] (-3) (-1) [] = Ok [x61; xc3; xa9] /\
  replace_codepoints [x61; xff; x80] 1 2 [xff; x80] = Ok [x61; xff; x80] /\
  replace_chars [x65; xcc; x81; x62] 1 2 [x63; xcc; x81] = Ok [x65; xcc; x81; x63; xcc; x81] /\
  replace_chars [x65; xcc; x81; x63; xcc; x81] 1 2 [x62] = Ok [x65; xcc; x81; x62].
Proof. repeat split; vm_compute; reflexivity. Qed.
