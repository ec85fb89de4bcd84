(** CodepointSet: C53, C54, C73. *)
From Verif Require Import Base Model.Decode Model.Encode Model.Subrange Model.Search Model.ConvertCase Model.CodepointSet Model.CaseInsensitive
  Spec.Utf8Spec Spec.Strings Spec.UnicodeData Spec.CpSet Proofs.CpSetLemmas Proofs.NewlineLemmas.

(** C53: whatever is in the set was added, by any calls; ... *)
Theorem C53_nothing_else : forall l negated c,
  cps_contains (fold_left perform l (cps_empty negated)) c <> negated -> Exists (fun a => adds a c) l.
Proof. exact p_c53_sound. Qed.
Print Assumptions C53_nothing_else.
(** ... and everything added is in it, unless a reversed range is directly
    followed by the code point after its end or 0xFFFFFFFF directly by 0. *)
Theorem C53_contains_partial : forall l negated c, values32 l -> harmless l ->
  cps_contains (fold_left perform l (cps_empty negated)) c = true <-> (Exists (fun a => adds a c) l <-> negated = false).
Proof. exact p_c53. Qed.
Print Assumptions C53_contains_partial.
(** There the code point is lost, and after 0xFFFFFFFF the range as well. *)
Theorem C53_lost_refuted : forall h x y d negated c, (y + 1) mod 0x100000000 = d -> d < x -> ~ Exists (fun a => adds a c) h ->
  cps_contains (fold_left perform (h ++ [AddRange x y; AddCodepoint d]) (cps_empty negated)) c = negated.
Proof. exact p_c53_after. Qed.
Print Assumptions C53_lost_refuted.
Theorem C53_reversed_refuted : cps_contains (add_codepoint (add_range (cps_empty false) 5 3) 4) 4 = false.
Proof. reflexivity. Qed.
Print Assumptions C53_reversed_refuted.
Theorem C53_wrap_refuted : let s := add_codepoints (cps_empty false) [0xFFFFFFFF; 0] in
  cps_contains s 0 = false /\ cps_contains s 0xFFFFFFFF = false.
Proof. exact (conj eq_refl eq_refl). Qed.
Print Assumptions C53_wrap_refuted.
(** Reversed ranges as such do no harm: they add nothing. *)
Example C53_ex : let l := [AddCodepoints [0x41; 0x42; 0x44]; AddRange 0x61 0x5A; AddCodepoint 0x7B; AddRange 0x100 0xFFFFFFFF] in
  values32 l /\ harmless l /\ cps_contains (fold_left perform l (cps_empty true)) 0x43 = true /\
  cps_contains (fold_left perform l (cps_empty true)) 0x7B = false.
Proof.
  split; [repeat constructor; cbn; lia|]. split; [|split; reflexivity].
  intros u x y one d v E. unfold steps in E. cbn [flat_map map app] in E.
  repeat (destruct u as [|? u]; cbn [app] in E; [first [discriminate E | injection E as; subst; lia]|first [discriminate E | injection E as _ E]]).
Qed.

(** C54.  What case-insensitive membership is: the upper-case form lies between
    those of the ends of a range. *)
Theorem C54_exact : forall s c, c < 0x100000000 ->
  Forall (fun r : N * N => fst r < 0x100000000 /\ snd r < 0x100000000) (cps_ranges s) ->
  cps_ci_contains s c = true <->
  ((exists r, In r (cps_ranges s) /\ simple_upper (fst r) <= simple_upper c <= simple_upper (snd r)) <-> cps_negated s = false).
Proof. exact p_c54_exact. Qed.
Print Assumptions C54_exact.
Theorem C54_case_of_argument : forall s c d, c < 0x100000000 -> d < 0x100000000 -> simple_upper c = simple_upper d ->
  cps_ci_contains s c = cps_ci_contains s d.
Proof. exact p_c54_case. Qed.
Print Assumptions C54_case_of_argument.
(** It extends membership when upper-casing keeps every code point of a range
    between its ends. *)
Theorem C54_extends_partial : forall s c, c < 0x100000000 -> cps_negated s = false ->
  Forall (fun r : N * N => fst r < 0x100000000 /\ snd r < 0x100000000 /\
     forall x, fst r <= x <= snd r -> simple_upper (fst r) <= simple_upper x <= simple_upper (snd r)) (cps_ranges s) ->
  cps_contains s c = true -> cps_ci_contains s c = true.
Proof. exact p_c54_extends. Qed.
Print Assumptions C54_extends_partial.
(** [A-z] has no '_', and a set made of the two characters "`a" has no 'a'. *)
Theorem C54_range_refuted : let s := add_range (cps_empty false) 0x41 0x7A in
  cps_contains s 0x5F = true /\ cps_ci_contains s 0x5F = false.
Proof. split; vm_compute; reflexivity. Qed.
Print Assumptions C54_range_refuted.
Theorem C54_merged_refuted : let s := add_codepoints (cps_empty false) [0x60; 0x61] in
  cps_contains s 0x61 = true /\ cps_ci_contains s 0x61 = false.
Proof. split; vm_compute; reflexivity. Qed.
Print Assumptions C54_merged_refuted.
Example C54_ex : let r := (0x41, 0x43) in
  (forall x, fst r <= x <= snd r -> simple_upper (fst r) <= simple_upper x <= simple_upper (snd r)) /\
  cps_ci_contains (CPS [r] false) 0x62 = true.
Proof.
  split; [|vm_compute; reflexivity]. intros x [H1 H2]. cbn [fst snd] in *.
  assert (D : x = 0x41 \/ x = 0x42 \/ x = 0x43) by (clear -H1 H2; Lia.lia).
  destruct D as [->|[->| ->]]; vm_compute; split; discriminate.
Qed.

(** C73.  [pre] ([post]) is the text before (from) the offset. *)
Theorem C73_find_first_of_set : forall chars pre,
  (forall u us g c v, Text u us -> Forall (fun x => cps_contains chars x = false) us -> uchar g c -> cps_contains chars c = true ->
     find_first_of_set (pre ++ u ++ g ++ v) chars (size pre) = Ok (Sub (size (pre ++ u)) (size g), c)) /\
  (forall u us, Text u us -> Forall (fun x => cps_contains chars x = false) us ->
     find_first_of_set (pre ++ u) chars (size pre) = Ok (Sub npos 0, INVALID_CHAR)) /\
  (forall u us r, Text u us -> Forall (fun x => cps_contains chars x = false) us -> Malformed r ->
     find_first_of_set (pre ++ u ++ r) chars (size pre) = Throw YstringException).
Proof. exact (fun chars => p_c16 (fun c => cps_contains chars c)). Qed.
Print Assumptions C73_find_first_of_set.
Theorem C73_find_last_of_set : forall chars post o,
  (forall pre u us g c, N.min o (size (pre ++ g ++ u ++ post)) = size (pre ++ g ++ u) ->
     Text u us -> Forall (fun x => cps_contains chars x = false) us -> uchar g c -> cps_contains chars c = true ->
     find_last_of_set (pre ++ g ++ u ++ post) chars o = Ok (Sub (size pre) (size g), c)) /\
  (forall u us, N.min o (size (u ++ post)) = size u -> Text u us -> Forall (fun x => cps_contains chars x = false) us ->
     find_last_of_set (u ++ post) chars o = Ok (Sub npos 0, INVALID_CHAR)) /\
  (forall r u us, N.min o (size (r ++ u ++ post)) = size (r ++ u) ->
     Text u us -> Forall (fun x => cps_contains chars x = false) us -> MalformedEnd r ->
     (~ long_cont_tail r -> find_last_of_set (r ++ u ++ post) chars o = Throw YstringException) /\
     (long_cont_tail r -> find_last_of_set (r ++ u ++ post) chars o = UB)).
Proof. exact (fun chars => p_c17 (fun c => cps_contains chars c)). Qed.
Print Assumptions C73_find_last_of_set.
Theorem C73_ci_find_first_of_set : forall chars pre,
  (forall u us g c v, Text u us -> Forall (fun x => cps_ci_contains chars x = false) us -> uchar g c -> cps_ci_contains chars c = true ->
     ci_find_first_of_set (pre ++ u ++ g ++ v) chars (size pre) = Ok (Sub (size (pre ++ u)) (size g), c)) /\
  (forall u us, Text u us -> Forall (fun x => cps_ci_contains chars x = false) us ->
     ci_find_first_of_set (pre ++ u) chars (size pre) = Ok (Sub npos 0, INVALID_CHAR)) /\
  (forall u us r, Text u us -> Forall (fun x => cps_ci_contains chars x = false) us -> Malformed r ->
     ci_find_first_of_set (pre ++ u ++ r) chars (size pre) = Throw YstringException).
Proof. exact (fun chars => p_c16 (fun c => cps_ci_contains chars c)). Qed.
Print Assumptions C73_ci_find_first_of_set.
Theorem C73_ci_find_last_of_set : forall chars post o,
  (forall pre u us g c, N.min o (size (pre ++ g ++ u ++ post)) = size (pre ++ g ++ u) ->
     Text u us -> Forall (fun x => cps_ci_contains chars x = false) us -> uchar g c -> cps_ci_contains chars c = true ->
     ci_find_last_of_set (pre ++ g ++ u ++ post) chars o = Ok (Sub (size pre) (size g), c)) /\
  (forall u us, N.min o (size (u ++ post)) = size u -> Text u us -> Forall (fun x => cps_ci_contains chars x = false) us ->
     ci_find_last_of_set (u ++ post) chars o = Ok (Sub npos 0, INVALID_CHAR)) /\
  (forall r u us, N.min o (size (r ++ u ++ post)) = size (r ++ u) ->
     Text u us -> Forall (fun x => cps_ci_contains chars x = false) us -> MalformedEnd r ->
     (~ long_cont_tail r -> ci_find_last_of_set (r ++ u ++ post) chars o = Throw YstringException) /\
     (long_cont_tail r -> ci_find_last_of_set (r ++ u ++ post) chars o = UB)).
Proof. exact (fun chars => p_c17 (fun c => cps_ci_contains chars c)). Qed.
Print Assumptions C73_ci_find_last_of_set.
Example C73_ex : find_first_of_set [x41; xc3; xa6; x62] (CPS [(0x41, 0x5A)] true) 0 = Ok (Sub 1 2, 0xE6) /\
  ci_find_last_of_set [x41; xc3; xa6; x62] (CPS [(0x41, 0x41)] false) npos = Ok (Sub 0 1, 0x41).
Proof. split; vm_compute; reflexivity. Qed.
