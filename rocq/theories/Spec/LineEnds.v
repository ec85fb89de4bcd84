(** Ranges of a text. *)
From Verif Require Import Base Spec.Strings Model.Subrange.

(** The range [x] of [s] is where [d] is. *)
Definition covers (s : str) (x : subrange) (d : str) : Prop :=
  exists u v, s = u ++ d ++ v /\ sub_start x = size u /\ sub_length x = size d.
