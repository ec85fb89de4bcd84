(** Calling a search again and again. *)
From Verif Require Import Base Spec.Utf8Spec Spec.Strings Model.Subrange.

(** [Visits search next o rs]: [search o] finds the first range of [rs], the
    search from where [next] says the second, and so on; the search after the
    last range finds nothing (returns an empty range). *)
Inductive Visits (search : N -> outcome subrange) (next : subrange -> N) : N -> list subrange -> Prop :=
| visits_end o r : search o = Ok r -> sub_length r = 0 -> Visits search next o []
| visits_step o r rs : search o = Ok r -> sub_length r <> 0 -> Visits search next (next r) rs -> Visits search next o (r :: rs).

(** The ranges of the separators in a text cut into (part, separator) pairs
    starting at offset [o] ... *)
Fixpoint cut_ranges (o : N) (cuts : list (str * str)) : list subrange :=
  match cuts with
  | [] => []
  | (u, g) :: cuts' => Sub (o + size u) (size g) :: cut_ranges (o + size u + size g) cuts'
  end.

(** ... and the ranges of the units of a text. *)
Fixpoint unit_ranges (o : N) (ps : list str) : list subrange :=
  match ps with
  | [] => []
  | p :: ps' => Sub o (size p) :: unit_ranges (o + size p) ps'
  end.

(** The same for functions that take code points off a string. *)
Inductive Pops (pop : str -> outcome (option N * str)) : str -> list N -> Prop :=
| pops_end s t : pop s = Ok (None, t) -> Pops pop s []
| pops_step s c t cs : pop s = Ok (Some c, t) -> Pops pop t cs -> Pops pop s (c :: cs).

(** [g] is the first code point of [u ++ g ++ v] that satisfies [f]; none in [t] does. *)
Definition first_match (f : N -> bool) (u g v : str) : Prop :=
  exists us c, Text u us /\ Forall (fun x => f x = false) us /\ uchar g c /\ f c = true.
Definition no_match (f : N -> bool) (t : str) : Prop := exists us, Text t us /\ Forall (fun x => f x = false) us.
