(** What the lines of a Unicode data file say, for every such file. *)
From Verif Require Import Base Spec.Category.
From Coq Require Export Sorted.

(** The lines are in increasing order of their code points. *)
Definition increasing_rows {A} (rows : list (N * A)) : Prop := StronglySorted (fun a b => fst a < fst b) rows.

(** The last code points of the ranges that the generator knows: the lines before
    these are the first code points of the ranges. *)
Definition range_ends : list N :=
  [0x4DB5; 0x9FCC; 0xD7A3; 0xDB7F; 0xDBFF; 0xDFFF; 0xF8FF; 0x2A6D6; 0x2B734; 0x2B81D; 0xFFFFD; 0x10FFFD].

(** The category of a code point according to the lines: its own line, or inside
    a range given by its ends, or unassigned. *)
Inductive RowClass (rows : list (N * category)) (c : N) : category -> Prop :=
| Row_listed k : In (c, k) rows -> RowClass rows c k
| Row_inside u a b k v : rows = u ++ (a, k) :: (b, k) :: v -> a < c < b -> In b range_ends -> RowClass rows c k
| Row_absent : (forall k, ~ In (c, k) rows) ->
    (forall u a b k v, rows = u ++ (a, k) :: (b, k) :: v -> a < c < b -> ~ In b range_ends) -> RowClass rows c Cn.

(** All lines of runs of lines with consecutive code points. *)
Definition rows_of (runs : list (N * N * category)) : list (N * category) :=
  flat_map (fun r : N * N * category => let '(lo, hi, k) := r in
    map (fun i => (lo + N.of_nat i, k)) (seq 0 (N.to_nat (hi - lo) + 1))) runs.

(** Rules (c, (a, b)): the canonical decomposition of c is a b.  All are below
    U+100000, as in every version of Unicode. *)
Definition small_rule (r : N * (N * N)) : Prop := fst r < 0x100000 /\ fst (snd r) < 0x100000 /\ snd (snd r) < 0x100000.

(** The order of pairs. *)
Definition pair_before (p q : N * N) : Prop := fst p < fst q \/ (fst p = fst q /\ snd p < snd q).

(** [NextRule rules p r]: [r] is the rule whose pair is the first one that is not
    before [p]. *)
Definition NextRule (rules : list (N * (N * N))) (p : N * N) (r : N * (N * N)) : Prop :=
  In r rules /\ ~ pair_before (snd r) p /\ forall q, In q rules -> ~ pair_before (snd q) p -> ~ pair_before (snd q) (snd r).
