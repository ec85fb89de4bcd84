(** Defined behaviour on arbitrary byte strings. *)
From Verif Require Import Base Spec.Utf8Spec Model.Subrange.

(** [runs U Q m]: the computation ends; it throws or its result satisfies [Q];
    undefined behaviour only if [U]. *)
Definition runs {A} (U : Prop) (Q : A -> Prop) (m : outcome A) : Prop :=
  match m with
  | Ok a => Q a
  | Throw _ => True
  | UB => U
  | OutOfFuel => False
  end.

(** Seven continuation bytes in a row, after some byte: no valid text contains
    even four. *)
Definition long_run (s : str) : Prop :=
  exists u b g v, s = u ++ b :: g ++ v /\ length g = 7%nat /\ Forall cont g.

(** The range lies inside the text; an empty one means that nothing was found. *)
Definition inside (s : str) (r : subrange) : Prop :=
  sub_length r = 0 \/ sub_offset r + sub_length r <= size s.

(** The call has defined behaviour and ends: with a result or with an exception. *)
Definition defined {A} (m : outcome A) : Prop := (exists a, m = Ok a) \/ (exists e, m = Throw e).

(** Whatever is returned satisfies [Q]. *)
Definition returns {A} (Q : A -> Prop) (m : outcome A) : Prop := forall a, m = Ok a -> Q a.

(** Every ptrdiff_t except the most negative one, whose absolute value does not exist. *)
Definition index (p : Z) : Prop := (PTRDIFF_MIN < p <= PTRDIFF_MAX)%Z.
