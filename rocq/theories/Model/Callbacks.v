(** Model of the functions that call back: the templates of
    include/Ystring/Algorithms.hpp that take a predicate or a token finder, and
    include/Ystring/TokenIterator.hpp, for callbacks that may have a state,
    have effects and throw.  Model/Search.v and Model/Split.v have the same
    functions for callbacks that are pure functions. *)
From Verif Require Import Base Model.Decode Model.Subrange Model.Search Model.Split.

(** A computation that may change a state [X] and end in any way.  The state is
    there also after an exception. *)
Definition fx (X A : Type) : Type := X -> outcome A * X.

Definition fx_bind {X A B} (m : fx X A) (k : A -> fx X B) : fx X B := fun x =>
  match m x with
  | (Ok a, x') => k a x'
  | (Throw e, x') => (Throw e, x')
  | (UB, x') => (UB, x')
  | (OutOfFuel, x') => (OutOfFuel, x')
  end.

(** A computation without effects *)
Definition fx_lift {X A} (o : outcome A) : fx X A := fun x => (o, x).

(** A function parameter taken by value: the function works on a copy, whose own
    state starts as [i] and is gone when the function ends. *)
Definition by_value {I X A} (i : I) (m : fx (I * X) A) : fx X A := fun x =>
  let (o, p) := m (i, x) in (o, snd p).

(** A lambda [[&](auto c) {return !pred(c);}] (Algorithms.hpp:566 and 589): it has no
    state of its own, and calls [pred], which belongs to the enclosing function. *)
Definition not_pred {X} (pred : N -> fx X bool) (c : N) : fx (unit * X) bool := fun p =>
  let (o, x) := fx_bind (pred c) (fun b => fx_lift (Ok (negb b))) (snd p) in (o, (fst p, x)).

(** Algorithms.hpp:139-144 *)
Fixpoint find_first_where_cb_loop {X} (fuel : nat) (s : str) (pred : N -> fx X bool) (prev it : nat)
  : fx X (subrange * N) :=
  match fuel with
  | O => fx_lift OutOfFuel
  | S fuel' =>
    fx_bind (fx_lift (safe_decode_next s it)) (fun r =>
    match r with
    | None => fx_lift (Ok (sub_at npos, INVALID_CHAR))
    | Some (ch, it') =>
      fx_bind (pred ch) (fun b =>
      if (b : bool) then fx_lift (Ok (sub_its 0 prev it', ch))
      else find_first_where_cb_loop fuel' s pred it' it')
    end)
  end.

(** Algorithms.hpp:131-146; [i] is the state of the predicate object passed. *)
Definition find_first_where_cb {I X} (s : str) (pred : N -> fx (I * X) bool) (i : I) (offset : N)
  : fx X (subrange * N) :=
  by_value i
    (fx_bind (fx_lift (begin_plus s offset)) (fun it =>
     find_first_where_cb_loop (S (length s)) s pred it it)).

(** Algorithms.hpp:205-210 *)
Fixpoint find_last_where_cb_loop {X} (fuel : nat) (s : str) (pred : N -> fx X bool) (it e : nat)
  : fx X (subrange * N) :=
  match fuel with
  | O => fx_lift OutOfFuel
  | S fuel' =>
    fx_bind (fx_lift (safe_decode_prev s it)) (fun r =>
    match r with
    | None => fx_lift (Ok (sub_at npos, INVALID_CHAR))
    | Some (ch, it') =>
      fx_bind (pred ch) (fun b =>
      if (b : bool) then fx_lift (Ok (sub_its 0 it' e, ch))
      else find_last_where_cb_loop fuel' s pred it' it')
    end)
  end.

(** Algorithms.hpp:196-212 *)
Definition find_last_where_cb {I X} (s : str) (pred : N -> fx (I * X) bool) (i : I) (offset : N)
  : fx X (subrange * N) :=
  by_value i
    (fx_bind (fx_lift (begin_plus s (N.min offset (size s)))) (fun it =>
     find_last_where_cb_loop (S (length s)) s pred it it)).

(** Algorithms.hpp:562-570 *)
Definition trim_end_where_cb {I X} (s : str) (pred : N -> fx (I * X) bool) (i : I) : fx X str :=
  by_value i
    (fx_bind (find_last_where_cb s (not_pred pred) tt npos) (fun p =>
     fx_lift (if negb (sub_bool (fst p)) then Ok [] else substr s 0 (sub_end (fst p))))).

(** Algorithms.hpp:585-593 *)
Definition trim_start_where_cb {I X} (s : str) (pred : N -> fx (I * X) bool) (i : I) : fx X str :=
  by_value i
    (fx_bind (find_first_where_cb s (not_pred pred) tt 0) (fun p =>
     fx_lift (if negb (sub_bool (fst p)) then Ok [] else substr_from s (sub_start (fst p))))).

(** Algorithms.hpp:599-605: both calls get a copy of [pred]. *)
Definition trim_where_cb {I X} (s : str) (pred : N -> fx (I * X) bool) (i : I) : fx X str :=
  fx_bind (trim_start_where_cb s pred i) (fun t => trim_end_where_cb t pred i).

(** TokenIterator.hpp:29-39 [next()].  The result, the iterator afterwards -
    also if an exception was thrown - and the state afterwards, in which the
    state of the member [m_finder] is included.  Line 32 has changed [m_str]
    before the finder is called. *)
Definition ti_next_cb {X} (finder : str -> fx X subrange) (t : token_iterator) (x : X)
  : outcome bool * (token_iterator * X) :=
  let find (s : str) :=
    match finder s x with
    | (Ok tok, x') => (Ok true, (TI s (if negb (sub_bool tok) then Sub SIZE_MAX (sub_length tok) else tok), x'))
    | (Throw e, x') => (Throw e, (TI s (ti_token t), x'))
    | (UB, x') => (UB, (TI s (ti_token t), x'))
    | (OutOfFuel, x') => (OutOfFuel, (TI s (ti_token t), x'))
    end in
  if sub_bool (ti_token t) then
    match substr_from (ti_str t) (sub_end (ti_token t)) with
    | Ok s => find s
    | Throw e => (Throw e, (t, x))
    | UB => (UB, (t, x))
    | OutOfFuel => (OutOfFuel, (t, x))
    end
  else if negb (sub_start (ti_token t) =? 0) then (Ok false, (t, x))
  else find (ti_str t).

(** Algorithms.hpp:517-522 *)
Fixpoint split_cb_loop {X} (fuel : nat) (finder : str -> fx X subrange) (max_splits : N)
    (ignore_empty : bool) (result : list str) : fx (token_iterator * X) (list str) :=
  match fuel with
  | O => fx_lift OutOfFuel
  | S fuel' =>
    if N.of_nat (length result) <? max_splits then
      fx_bind (fun p => ti_next_cb finder (fst p) (snd p)) (fun ok =>
      if (ok : bool) then
        fx_bind (fun p => (ti_part (fst p), p)) (fun part =>
        split_cb_loop fuel' finder max_splits ignore_empty
          (if negb ignore_empty || negb (is_nil part) then result ++ [part] else result))
      else fx_lift (Ok result))
    else fx_lift (Ok result)
  end.

(** Algorithms.hpp:509-530 *)
Definition split_where_cb {I X} (s : str) (finder : str -> fx (I * X) subrange) (i : I) (max_splits : N)
    (ignore_empty : bool) : fx X (list str) := fun x =>
  let '(o, (t, (_, x'))) := split_cb_loop (S (S (length s))) finder max_splits ignore_empty [] (ti_init s, (i, x)) in
  (let* result := o in
   if ti_bool t then
     let* remainder := ti_remainder t in
     Ok (if negb ignore_empty || negb (is_nil remainder) then result ++ [remainder] else result)
   else Ok result, x').
