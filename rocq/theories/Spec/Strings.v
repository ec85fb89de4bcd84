(** Specification vocabulary for byte strings. *)
From Verif Require Import Base.

(** Strings that can exist: std::string::max_size() is below 2^63, because
    iterator differences must fit ptrdiff_t. *)
Definition Fits (s : str) : Prop := size s < 0x8000000000000000.

(** [p] occurs in [s] at byte offset [i]. *)
Definition occurs_at (p s : str) (i : nat) : Prop :=
  exists u v, s = u ++ p ++ v /\ length u = i.

(** [Interleave sep parts]: the parts with [sep] between neighbours. *)
Fixpoint interleave (sep : str) (parts : list str) : str :=
  match parts with
  | [] => []
  | [x] => x
  | x :: rest => x ++ sep ++ interleave sep rest
  end.

(** The first (last) element, if any, does not satisfy [p]. *)
Definition first_out (p : N -> Prop) (cs : list N) : Prop := match cs with [] => True | c :: _ => ~ p c end.
Definition last_out (p : N -> Prop) (cs : list N) : Prop := forall ds c, cs = ds ++ [c] -> ~ p c.
