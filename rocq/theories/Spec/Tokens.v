(** Runs of a token iterator. *)
From Verif Require Import Base Model.Subrange Model.Split.

(** [TokenRun finder s t left tokens]: starting on [s], after [length tokens]
    calls of next() that each found a token, the iterator is [t], the text not
    yet searched is [left] and [tokens] are the (part, token) pairs so far. *)
Inductive TokenRun (finder : str -> outcome subrange) (s : str)
  : token_iterator -> str -> list (str * str) -> Prop :=
| run_start : TokenRun finder s (ti_init s) s []
| run_next t t' u g v tokens :
    TokenRun finder s t (u ++ g ++ v) tokens ->
    finder (u ++ g ++ v) = Ok (Sub (size u) (size g)) -> g <> [] ->
    ti_next finder t = Ok (true, t') ->
    TokenRun finder s t' v (tokens ++ [(u, g)]).
