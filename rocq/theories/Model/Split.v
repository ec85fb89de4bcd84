(** Model of include/Ystring/TokenIterator.hpp and of the split functions. *)
From Verif Require Import Base Model.Decode Model.Subrange Model.Search.

(** TokenIterator.hpp:65-66; the finder is passed separately. *)
Record token_iterator : Type := TI { ti_str : str; ti_token : subrange }.

(** TokenIterator.hpp:18-22 *)
Definition ti_init (s : str) : token_iterator := TI s (Sub 0 0).

(** TokenIterator.hpp:24-27 [operator bool] *)
Definition ti_bool (t : token_iterator) : bool := sub_bool (ti_token t).

(** TokenIterator.hpp:29-39 [next()] *)
Definition ti_next (finder : str -> outcome subrange) (t : token_iterator)
  : outcome (bool * token_iterator) :=
  let find (s : str) :=
    let* tok := finder s in
    Ok (true, TI s (if negb (sub_bool tok) then Sub SIZE_MAX (sub_length tok) else tok)) in
  if sub_bool (ti_token t) then
    let* s := substr_from (ti_str t) (sub_end (ti_token t)) in find s
  else if negb (sub_start (ti_token t) =? 0) then Ok (false, t)
  else find (ti_str t).

(** TokenIterator.hpp:41-49 *)
Definition ti_part (t : token_iterator) : outcome str :=
  if sub_bool (ti_token t) then substr (ti_str t) 0 (sub_start (ti_token t))
  else if negb (sub_start (ti_token t) =? 0) then Ok (ti_str t)
  else Ok [].

(** TokenIterator.hpp:51-56 *)
Definition ti_get_token (t : token_iterator) : outcome str :=
  if negb (sub_bool (ti_token t)) then Ok []
  else substr (ti_str t) (sub_start (ti_token t)) (sub_end (ti_token t)).

(** TokenIterator.hpp:58-63 *)
Definition ti_remainder (t : token_iterator) : outcome str :=
  if sub_bool (ti_token t) || (sub_start (ti_token t) =? 0)
  then substr_from (ti_str t) (sub_end (ti_token t))
  else Ok [].

Definition is_nil {A} (l : list A) : bool := match l with [] => true | _ => false end.

(** Algorithms.hpp:517-522.  Each iteration but the last shortens the remaining
    text when the finder returns ranges inside the text. *)
Fixpoint split_loop (fuel : nat) (finder : str -> outcome subrange) (max_splits : N)
    (ignore_empty : bool) (t : token_iterator) (result : list str)
  : outcome (list str * token_iterator) :=
  match fuel with
  | O => OutOfFuel
  | S fuel' =>
    if N.of_nat (length result) <? max_splits then
      let* p := ti_next finder t in
      let (ok, t) := p in
      if ok then
        let* part := ti_part t in
        let result := if negb ignore_empty || negb (is_nil part) then result ++ [part] else result in
        split_loop fuel' finder max_splits ignore_empty t result
      else Ok (result, t)
    else Ok (result, t)
  end.

(** Algorithms.hpp:509-530 *)
Definition split_where (s : str) (finder : str -> outcome subrange) (max_splits : N)
    (ignore_empty : bool) : outcome (list str) :=
  let* p := split_loop (S (S (length s))) finder max_splits ignore_empty (ti_init s) [] in
  let (result, t) := p in
  if ti_bool t then
    let* remainder := ti_remainder t in
    Ok (if negb ignore_empty || negb (is_nil remainder) then result ++ [remainder] else result)
  else Ok result.

(** Algorithms.cpp:467-474 [split(str, u32string_view chars, params)] *)
Definition split_chars (s : str) (chars : u32str) (max_splits : N) (ignore_empty : bool)
  : outcome (list str) :=
  split_where s (fun t => let* p := find_first_of t chars 0 in Ok (fst p)) max_splits ignore_empty.

(** Algorithms.cpp:476-483 [split(str, string_view sep, params)] *)
Definition split_sep (s sep : str) (max_splits : N) (ignore_empty : bool) : outcome (list str) :=
  split_where s (fun t => find_first t sep 0) max_splits ignore_empty.

(** Algorithms.cpp:485-491.  [after] is the memory following NEWLINES. *)
Definition split_lines (after : list N) (s : str) (max_splits : N) (ignore_empty : bool)
  : outcome (list str) :=
  split_where s (fun t => find_first_newline after t 0) max_splits ignore_empty.
