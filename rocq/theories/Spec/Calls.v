(** What a callback was asked, and what it answered. *)
From Verif Require Import Base Model.Subrange Model.Split Model.Callbacks.

(** [Answers pred b x cs x']: asked about the code points [cs], in this order
    and each once, the predicate answered [b] every time; its state was [x]
    before and is [x'] afterwards. *)
Inductive Answers {X : Type} (pred : N -> X -> outcome bool * X) (b : bool) : X -> list N -> X -> Prop :=
| answers_nil x : Answers pred b x [] x
| answers_cons x c x1 cs x2 :
    pred c x = (Ok b, x1) -> Answers pred b x1 cs x2 -> Answers pred b x (c :: cs) x2.

(** [Finds finder x s cuts rest x']: called first with [s] and then each time
    with what follows the token just found, the finder found the tokens of the
    (part, token) pairs [cuts]; [rest] follows the last one. *)
Inductive Finds {X : Type} (finder : str -> X -> outcome subrange * X) : X -> str -> list (str * str) -> str -> X -> Prop :=
| finds_nil x s : Finds finder x s [] s x
| finds_cons x u g v x1 cuts rest x2 :
    g <> [] -> finder (u ++ g ++ v) x = (Ok (Sub (size u) (size g)), x1) ->
    Finds finder x1 v cuts rest x2 -> Finds finder x (u ++ g ++ v) ((u, g) :: cuts) rest x2.

(** A predicate that returns or throws. *)
Definition answers_or_throws {X : Type} (pred : N -> X -> outcome bool * X) : Prop := forall c x,
  (exists b x', pred c x = (Ok b, x')) \/ exists e x', pred c x = (Throw e, x').

(** Runs of a token iterator whose finder may have a state.  [CbRun finder x0 s t
    x left tokens]: starting on [s] and in state [x0], after [length tokens] calls
    of next() that each found a token, the iterator is [t], the state is [x], the
    text not yet searched is [left] and [tokens] are the (part, token) pairs so
    far. *)
Inductive CbRun {X : Type} (finder : str -> X -> outcome subrange * X) (x0 : X) (s : str)
  : token_iterator -> X -> str -> list (str * str) -> Prop :=
| cb_start : CbRun finder x0 s (ti_init s) x0 s []
| cb_next t x u g v tokens t' x' :
    CbRun finder x0 s t x (u ++ g ++ v) tokens ->
    finder (u ++ g ++ v) x = (Ok (Sub (size u) (size g)), x') -> g <> [] ->
    ti_next_cb finder t x = (Ok true, (t', x')) ->
    CbRun finder x0 s t' x' v (tokens ++ [(u, g)]).
