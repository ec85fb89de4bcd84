(** Laws that relate several functions. *)
From Verif Require Import Base Spec.Utf8Spec Spec.Strings.

(** No separator can be found inside the parts or across the end of a part that
    a separator follows. *)
Fixpoint separable (sep : str) (l : list str) : Prop :=
  match l with
  | [] => False
  | [x] => forall i, ~ occurs_at sep x i
  | x :: l' => (forall i, (i < length x)%nat -> ~ occurs_at sep (x ++ sep) i) /\ separable sep l'
  end.
