(** Model of the functions that return std::string_view, with views as places in
    memory: which bytes of the caller's text the result refers to.  Model/Search.v,
    Model/Split.v and Model/Chars.v have the same functions with views as byte
    strings. *)
From Verif Require Import Base Model.Decode Model.Subrange Model.Search Model.Chars Model.Split Model.CaseInsensitive.

(** A std::string_view: [Some (o, n)] is [n] bytes from the [o]th byte of the
    caller's array on; [None] is the default view [{}], whose data() is null. *)
Definition view : Type := option (nat * nat).

(** The bytes of a view; [m] is the caller's array. *)
Definition bytes (m : str) (v : view) : str :=
  match v with Some (o, n) => firstn n (skipn o m) | None => [] end.

(** std::string_view::size *)
Definition vsize (v : view) : N := match v with Some (_, n) => N.of_nat n | None => 0 end.

(** std::string_view::substr *)
Definition vsubstr (v : view) (pos n : N) : outcome view :=
  if vsize v <? pos then Throw StdOutOfRange
  else Ok (match v with
           | Some (o, l) => Some ((o + N.to_nat pos)%nat, N.to_nat (N.min n (N.of_nat l - pos)))
           | None => None
           end).
Definition vsubstr_from (v : view) (pos : N) : outcome view := vsubstr v pos npos.

(** Algorithms.hpp:562-570 *)
Definition v_trim_end_where (m : str) (v : view) (pred : N -> bool) : outcome view :=
  let* p := find_last_where (bytes m v) (fun c => negb (pred c)) npos in
  if negb (sub_bool (fst p)) then Ok None else vsubstr v 0 (sub_end (fst p)).

(** Algorithms.hpp:585-593 *)
Definition v_trim_start_where (m : str) (v : view) (pred : N -> bool) : outcome view :=
  let* p := find_first_where (bytes m v) (fun c => negb (pred c)) 0 in
  if negb (sub_bool (fst p)) then Ok None else vsubstr_from v (sub_start (fst p)).

(** Algorithms.hpp:599-605 *)
Definition v_trim_where (m : str) (v : view) (pred : N -> bool) : outcome view :=
  let* t := v_trim_start_where m v pred in v_trim_end_where m t pred.

(** Algorithms.cpp:503-506, 508-511, 498-501 *)
Definition v_trim_end (m : str) (v : view) (chars : u32str) : outcome view :=
  v_trim_end_where m v (fun c => u32_contains chars c).
Definition v_trim_start (m : str) (v : view) (chars : u32str) : outcome view :=
  v_trim_start_where m v (fun c => u32_contains chars c).
Definition v_trim (m : str) (v : view) (chars : u32str) : outcome view :=
  let* t := v_trim_start m v chars in v_trim_end m t chars.

(** Algorithms.cpp:279-285 *)
Definition v_get_codepoint_substring (m : str) (v : view) (start_index end_index : Z) : outcome view :=
  let* range := get_codepoint_substring_range (bytes m v) start_index end_index in
  vsubstr v (sub_offset range) (sub_length range).

(** Algorithms.cpp:221-227 *)
Definition v_get_char_substring (m : str) (v : view) (start_index end_index : Z) : outcome view :=
  let* range := get_char_substring_range (bytes m v) start_index end_index in
  vsubstr v (sub_offset range) (sub_length range).

(** TokenIterator.hpp:65-66 *)
Record v_token_iterator : Type := VTI { vti_str : view; vti_token : subrange }.
(** TokenIterator.hpp:18-22 *)
Definition vti_init (v : view) : v_token_iterator := VTI v (Sub 0 0).
(** TokenIterator.hpp:24-27 *)
Definition vti_bool (t : v_token_iterator) : bool := sub_bool (vti_token t).
(** TokenIterator.hpp:29-39 *)
Definition vti_next (m : str) (finder : str -> outcome subrange) (t : v_token_iterator)
  : outcome (bool * v_token_iterator) :=
  let find (v : view) :=
    let* tok := finder (bytes m v) in
    Ok (true, VTI v (if negb (sub_bool tok) then Sub SIZE_MAX (sub_length tok) else tok)) in
  if sub_bool (vti_token t) then
    let* v := vsubstr_from (vti_str t) (sub_end (vti_token t)) in find v
  else if negb (sub_start (vti_token t) =? 0) then Ok (false, t)
  else find (vti_str t).
(** TokenIterator.hpp:41-49 *)
Definition vti_part (t : v_token_iterator) : outcome view :=
  if sub_bool (vti_token t) then vsubstr (vti_str t) 0 (sub_start (vti_token t))
  else if negb (sub_start (vti_token t) =? 0) then Ok (vti_str t)
  else Ok None.
(** TokenIterator.hpp:51-56 *)
Definition vti_get_token (t : v_token_iterator) : outcome view :=
  if negb (sub_bool (vti_token t)) then Ok None
  else vsubstr (vti_str t) (sub_start (vti_token t)) (sub_end (vti_token t)).
(** TokenIterator.hpp:58-63 *)
Definition vti_remainder (t : v_token_iterator) : outcome view :=
  if sub_bool (vti_token t) || (sub_start (vti_token t) =? 0)
  then vsubstr_from (vti_str t) (sub_end (vti_token t))
  else Ok None.

(** Algorithms.hpp:517-522 *)
Fixpoint v_split_loop (m : str) (fuel : nat) (finder : str -> outcome subrange) (max_splits : N)
    (ignore_empty : bool) (t : v_token_iterator) (result : list view)
  : outcome (list view * v_token_iterator) :=
  match fuel with
  | O => OutOfFuel
  | S fuel' =>
    if N.of_nat (length result) <? max_splits then
      let* p := vti_next m finder t in
      let (ok, t) := p in
      if ok then
        let* part := vti_part t in
        let result := if negb ignore_empty || negb (vsize part =? 0) then result ++ [part] else result in
        v_split_loop m fuel' finder max_splits ignore_empty t result
      else Ok (result, t)
    else Ok (result, t)
  end.

(** Algorithms.hpp:509-530 *)
Definition v_split_where (m : str) (v : view) (finder : str -> outcome subrange) (max_splits : N)
    (ignore_empty : bool) : outcome (list view) :=
  let* p := v_split_loop m (S (S (length (bytes m v)))) finder max_splits ignore_empty (vti_init v) [] in
  let (result, t) := p in
  if vti_bool t then
    let* remainder := vti_remainder t in
    Ok (if negb ignore_empty || negb (vsize remainder =? 0) then result ++ [remainder] else result)
  else Ok result.

(** Algorithms.cpp:467-474, 476-483, 485-491; [after] is the memory following NEWLINES. *)
Definition v_split_chars (m : str) (v : view) (chars : u32str) (max_splits : N) (ignore_empty : bool) : outcome (list view) :=
  v_split_where m v (fun t => let* p := find_first_of t chars 0 in Ok (fst p)) max_splits ignore_empty.
Definition v_split_sep (m : str) (v : view) (sep : str) (max_splits : N) (ignore_empty : bool) : outcome (list view) :=
  v_split_where m v (fun t => find_first t sep 0) max_splits ignore_empty.
Definition v_split_lines (after : list N) (m : str) (v : view) (max_splits : N) (ignore_empty : bool) : outcome (list view) :=
  v_split_where m v (fun t => find_first_newline after t 0) max_splits ignore_empty.

(** The two split functions in namespace case_insensitive: lines as cited for
    [ci_split_chars] and [ci_split_sep] in Model/CaseInsensitive.v. *)
Definition v_ci_split_chars (m : str) (v : view) (chars : u32str) (max_splits : N) (ignore_empty : bool) : outcome (list view) :=
  v_split_where m v (fun t => let* p := ci_find_first_of t chars 0 in Ok (fst p)) max_splits ignore_empty.
Definition v_ci_split_sep (m : str) (v : view) (sep : str) (max_splits : N) (ignore_empty : bool) : outcome (list view) :=
  v_split_where m v (fun t => ci_find_first t sep 0) max_splits ignore_empty.
