(** Calling [unescape_next] until it returns nothing. *)
From Verif Require Import Base Model.Unescape.

(** [Iterated s cs]: repeated calls on a view of [s] return the characters [cs],
    one after the other, and then nothing. *)
Inductive Iterated : str -> list N -> Prop :=
| it_end s s' b : unescape_next s = ((Ok None, s'), b) -> Iterated s []
| it_step s c s' b cs : unescape_next s = ((Ok (Some c), s'), b) -> Iterated s' cs -> Iterated s (c :: cs).
