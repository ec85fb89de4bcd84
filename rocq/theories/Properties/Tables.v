(** C89: the tables are in the order their binary searches need. *)
From Coq Require Import Sorted.
From Verif Require Import Base Model.LowerBound Model.ConvertCase Model.CharClass Tables.CharClassTables Tables.CaseTables Tables.NormalizationTables
  Proofs.BinarySearch.

Theorem C89_sorted :
  StronglySorted N.lt (map segment_of COMPACT_LOWER_CASE) /\ StronglySorted N.lt (map fst LOWER_CASE) /\
  StronglySorted N.lt (map segment_of COMPACT_TITLE_CASE) /\ StronglySorted N.lt (map fst TITLE_CASE) /\
  StronglySorted N.lt (map segment_of COMPACT_UPPER_CASE) /\ StronglySorted N.lt (map fst UPPER_CASE) /\
  StronglySorted N.lt COMPLETE_CHAR_CLASSES /\ StronglySorted N.lt TO_DECOMPOSED /\ StronglySorted N.lt TO_COMPOSED.
Proof. exact p_c89_sorted. Qed.
Print Assumptions C89_sorted.
(** Halving finds the border between the smaller keys and the others, reads
    nothing outside the table and ends. *)
Theorem C89_search : forall (A : Type) (key : A -> N) (l : list A) k, StronglySorted N.lt (map key l) ->
  exists p, std_lower_bound (fun e => key e <? k) l = Ok p /\ (p <= length l)%nat /\
    (forall i x, (i < p)%nat -> nth_error l i = Some x -> key x < k) /\
    (forall i x, (p <= i)%nat -> nth_error l i = Some x -> k <= key x).
Proof. exact @p_c89_search. Qed.
Print Assumptions C89_search.
(** So the linear search that stands for std::lower_bound in the model finds the
    same element, in every table and for every key. *)
Theorem C89_same_element : forall (A : Type) (key : A -> N) (l : list A) k, StronglySorted N.lt (map key l) ->
  exists p, std_lower_bound (fun e => key e <? k) l = Ok p /\ nth_error l p = lower_bound (fun e => key e <? k) l.
Proof. exact @p_c89_same. Qed.
Print Assumptions C89_same_element.
Example C89_ex : std_lower_bound (fun m => fst m <? 0x1C5) UPPER_CASE = Ok 10%nat /\ option_map fst (nth_error UPPER_CASE 10) = Some 0x1C6.
Proof. vm_compute. split; reflexivity. Qed.
