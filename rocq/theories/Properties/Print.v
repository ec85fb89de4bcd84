(** C88: what the stream operators write. *)
From Coq Require Import String.
From Verif Require Import Base Spec.Utf8Spec Spec.Print Model.Decode Model.Encode Model.Search Model.Subrange Model.CodepointSet Model.Print Proofs.PrintLemmas.
Local Notation "'#' s" := (list_byte_of_string s%string) (at level 5, only parsing).

Theorem C88_subrange : forall r, exists a b, Decimal a (sub_offset r) /\ Decimal b (sub_length r) /\
  print_subrange r = #"{offset: " ++ a ++ #", length: " ++ b ++ #"}".
Proof. exact p_c88_subrange. Qed.
Print Assumptions C88_subrange.
Theorem C88_subrange_injective : forall r r', print_subrange r = print_subrange r' -> r = r'.
Proof. exact p_c88_subrange_inj. Qed.
Print Assumptions C88_subrange_injective.
Theorem C88_set : forall s, Forall (fun r : N * N => fst r <= 0x10FFFF /\ snd r <= 0x10FFFF) (cps_ranges s) ->
  Encoded (print_cpset s) (shown_set (cps_negated s) (cps_ranges s)).
Proof. exact p_c88_set. Qed.
Print Assumptions C88_set.
(** Different sets are written differently when no '-' is an end of a range and
    no range starts with '^' ... *)
Theorem C88_set_injective_partial : forall s s',
  Forall (fun r : N * N => let (a, b) := r in a <= 0x10FFFF /\ b <= 0x10FFFF /\ a <> 0x2D /\ b <> 0x2D /\ a <> 0x5E) (cps_ranges s) ->
  Forall (fun r : N * N => let (a, b) := r in a <= 0x10FFFF /\ b <= 0x10FFFF /\ a <> 0x2D /\ b <> 0x2D /\ a <> 0x5E) (cps_ranges s') ->
  print_cpset s = print_cpset s' -> s = s'.
Proof. exact p_c88_set_inj. Qed.
Print Assumptions C88_set_injective_partial.
(** ... and otherwise not: nothing is escaped. *)
Theorem C88_set_refuted :
  print_cpset (add_codepoints (cps_empty false) [0x5E; 0x61]) = print_cpset (add_codepoint (cps_empty true) 0x61) /\
  print_cpset (add_codepoints (cps_empty false) [0x61; 0x2D; 0x63]) = print_cpset (add_range (cps_empty false) 0x61 0x63).
Proof. exact (conj eq_refl eq_refl). Qed.
Print Assumptions C88_set_refuted.
Example C88_ex : print_subrange (Sub 10 203) = #"{offset: 10, length: 203}" /\ print_subrange (Sub 0 18446744073709551615) = #"{offset: 0, length: 18446744073709551615}" /\
  print_cpset (add_codepoint (add_range (cps_empty true) 0x61 0x63) 0x20AC) = #"[^a-c" ++ [xe2; x82; xac; x5d].
Proof. repeat split; vm_compute; reflexivity. Qed.
