(** Positions reached by repeatedly skipping code points from either end. *)
From Verif Require Import Base Model.Decode.

(** Reached from the start by zero or more successful [skip_next]. *)
Inductive fwd_boundary (s : str) : nat -> Prop :=
| fwd_begin : fwd_boundary s 0
| fwd_step i j : fwd_boundary s i -> skip_next s i = Ok (Some j) -> fwd_boundary s j.

(** Reached from the end by zero or more successful [skip_prev]. *)
Inductive bwd_boundary (s : str) : nat -> Prop :=
| bwd_end : bwd_boundary s (length s)
| bwd_step i j : bwd_boundary s i -> skip_prev s i = Ok (Some j) -> bwd_boundary s j.
