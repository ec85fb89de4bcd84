(** What the offset argument of the searching functions means: C102. *)
From Verif Require Import Base Model.Decode Model.Encode Model.Subrange Model.Search Model.ConvertCase Model.CodepointSet Model.Chars Model.CaseInsensitive
  Spec.Utf8Spec Spec.Strings Spec.Offsets Proofs.SearchLemmas Proofs.OffsetLemmas Proofs.OffsetProps.

(** C102.  The texts are arbitrary bytes, [pred], [chars], [p] and the offset
    are arbitrary; an offset beyond the end is undefined behaviour on both
    sides.  Forwards, what precedes the offset does not matter; ... *)
Theorem C102_forward : forall pre t o, Fits (pre ++ t) ->
  (forall p, find_first (pre ++ t) p (size pre + o) = moved_result (size pre) (find_first t p o)) /\
  (forall pred, find_first_where (pre ++ t) pred (size pre + o) = moved_char (size pre) (find_first_where t pred o)) /\
  (forall chars, find_first_of (pre ++ t) chars (size pre + o) = moved_char (size pre) (find_first_of t chars o)) /\
  (forall after, find_first_newline after (pre ++ t) (size pre + o) = moved_result (size pre) (find_first_newline after t o)) /\
  get_next_char_range (pre ++ t) (size pre + o) = moved_result (size pre) (get_next_char_range t o).
Proof. exact p_c102_forward. Qed.
Print Assumptions C102_forward.
Theorem C102_forward_case_insensitive : forall pre t o, Fits (pre ++ t) ->
  (forall p, ci_find_first (pre ++ t) p (size pre + o) = moved_result (size pre) (ci_find_first t p o)) /\
  (forall chars, ci_find_first_of (pre ++ t) chars (size pre + o) = moved_char (size pre) (ci_find_first_of t chars o)) /\
  (forall set, ci_find_first_of_set (pre ++ t) set (size pre + o) = moved_char (size pre) (ci_find_first_of_set t set o)).
Proof. exact p_c102_forward_ci. Qed.
Print Assumptions C102_forward_case_insensitive.
(** ... backwards, what follows it does not. *)
Theorem C102_backward : forall t post o, o <= size t ->
  (forall p, find_last (t ++ post) p o = find_last t p o) /\
  (forall pred, find_last_where (t ++ post) pred o = find_last_where t pred o) /\
  (forall chars, find_last_of (t ++ post) chars o = find_last_of t chars o) /\
  (Fits t -> forall after, find_last_newline after (t ++ post) o = find_last_newline after t o) /\
  get_prev_char_range (t ++ post) o = get_prev_char_range t o.
Proof. exact p_c102_backward. Qed.
Print Assumptions C102_backward.
Theorem C102_backward_case_insensitive : forall t post o, o <= size t ->
  (forall p, ci_find_last (t ++ post) p o = ci_find_last t p o) /\
  (forall chars, ci_find_last_of (t ++ post) chars o = ci_find_last_of t chars o) /\
  (forall set, ci_find_last_of_set (t ++ post) set o = ci_find_last_of_set t set o).
Proof. exact p_c102_backward_ci. Qed.
Print Assumptions C102_backward_case_insensitive.
(** Backwards, an offset beyond the end is the end. *)
Theorem C102_beyond : forall s o, size s <= o ->
  (forall p, find_last s p o = find_last s p (size s)) /\
  (forall pred, find_last_where s pred o = find_last_where s pred (size s)) /\
  (forall chars, find_last_of s chars o = find_last_of s chars (size s)) /\
  (forall after, find_last_newline after s o = find_last_newline after s (size s)) /\
  (forall p, ci_find_last s p o = ci_find_last s p (size s)) /\
  (forall chars, ci_find_last_of s chars o = ci_find_last_of s chars (size s)) /\
  (forall set, ci_find_last_of_set s set o = ci_find_last_of_set s set (size s)).
Proof. exact p_c102_beyond. Qed.
Print Assumptions C102_beyond.
(** A substring found from one offset is what is found from every offset up to
    it; backwards, from every offset down to its end. *)
Theorem C102_between : forall s p o o' i, p <> [] ->
  (find_first s p o = Ok (Sub i (size p)) -> o <= o' <= i -> find_first s p o' = Ok (Sub i (size p))) /\
  (find_last s p o = Ok (Sub i (size p)) -> i + size p <= o' <= o -> find_last s p o' = Ok (Sub i (size p))).
Proof. exact p_c102_between. Qed.
Print Assumptions C102_between.
Example C102_ex : Fits ([x41; xff] ++ [x42; xc3; xa6]) /\
  find_first_of [x41; xff; x42; xc3; xa6] [0xE6] 2 = Ok (Sub 3 2, 0xE6) /\ find_first_of [x42; xc3; xa6] [0xE6] 0 = Ok (Sub 1 2, 0xE6) /\
  find_first_of [x41; xff; x42] [0xE6] 2 = Ok (Sub npos 0, INVALID_CHAR) /\ find_first [x41; x42] [x42] 3 = UB /\
  find_last_of [x42; x41; xff] [0x42] 2 = Ok (Sub 0 1, 0x42).
Proof. repeat split; vm_compute; reflexivity. Qed.
