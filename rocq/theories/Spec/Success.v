(** Calls that return. *)
From Verif Require Import Base.

(** The call returns a value: no exception, no undefined behaviour, no endless loop. *)
Definition succeeds {A} (m : outcome A) : Prop := exists a, m = Ok a.
(** The call throws. *)
Definition throws {A} (m : outcome A) : Prop := exists e, m = Throw e.
