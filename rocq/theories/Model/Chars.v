(** Model of the functions of src/Ystring/Algorithms.cpp and
    src/Ystring/AlgorithmUtilities.cpp that work on characters (a code point
    and its combining marks). *)
From Verif Require Import Base Model.Decode Model.Encode Model.Subrange Model.Search Model.CharClass.

(** Algorithms.cpp:295-299 *)
Fixpoint next_char_loop (fuel : nat) (s : str) (it e : nat) : outcome nat :=
  match fuel with
  | O => OutOfFuel
  | S fuel' =>
    let* r := safe_decode_next s it in
    match r with
    | None => Ok e
    | Some (codepoint, it') =>
      if is_mark codepoint then next_char_loop fuel' s it' it' else Ok e
    end
  end.

(** Algorithms.cpp:287-302 *)
Definition get_next_char_range (s : str) (offset : N) : outcome subrange :=
  let* it := begin_plus s offset in
  let* r := safe_decode_next s it in
  match r with
  | None => Ok (Sub offset 0)
  | Some (_, it) =>
    let* e := next_char_loop (S (length s)) s it it in
    Ok (Sub offset (sub64 (N.of_nat e) offset))
  end.

(** Algorithms.cpp:308-311 *)
Fixpoint prev_char_loop (fuel : nat) (s : str) (it : nat) : outcome nat :=
  match fuel with
  | O => OutOfFuel
  | S fuel' =>
    let* r := safe_decode_prev s it in
    match r with
    | None => Ok it
    | Some (codepoint, it') => if is_mark codepoint then prev_char_loop fuel' s it' else Ok it'
    end
  end.

(** Algorithms.cpp:304-315 *)
Definition get_prev_char_range (s : str) (offset : N) : outcome subrange :=
  let* it := begin_plus s offset in
  let* it := prev_char_loop (S (length s)) s it in
  Ok (Sub (N.of_nat it) (sub64 offset (N.of_nat it))).

(** Algorithms.cpp:61-66 *)
Fixpoint count_chars_loop (fuel : nat) (s : str) (offset count : N) : outcome N :=
  match fuel with
  | O => OutOfFuel
  | S fuel' =>
    if negb (offset =? size s) then
      let* range := get_next_char_range s offset in
      count_chars_loop fuel' s (sub_end range) (add64 count 1)
    else Ok count
  end.

(** Algorithms.cpp:57-68 *)
Definition count_chars (s : str) : outcome N := count_chars_loop (S (length s)) s 0 0.

(** Algorithms.cpp:172-178 *)
Fixpoint char_pos_fwd (fuel : nat) (s : str) (pos : Z) (offset : N) : outcome N :=
  match fuel with
  | O => OutOfFuel
  | S fuel' =>
    if (0 <? pos)%Z then
      let* range := get_next_char_range s offset in
      if negb (sub_bool range) then Ok npos
      else char_pos_fwd fuel' s (pos - 1)%Z (sub_end range)
    else Ok offset
  end.

(** Algorithms.cpp:183-189 *)
Fixpoint char_pos_bwd (fuel : nat) (s : str) (pos : Z) (offset : N) : outcome N :=
  match fuel with
  | O => OutOfFuel
  | S fuel' =>
    if (pos <? 0)%Z then
      let* range := get_prev_char_range s offset in
      if negb (sub_bool range) then Ok npos
      else char_pos_bwd fuel' s (pos + 1)%Z (sub_start range)
    else Ok offset
  end.

(** Algorithms.cpp:166-193 *)
Definition get_char_pos (s : str) (pos : Z) : outcome N :=
  if (0 <=? pos)%Z then char_pos_fwd (S (S (length s))) s pos 0
  else char_pos_bwd (S (S (length s))) s pos (size s).

(** Algorithms.cpp:195-219 *)
Definition get_char_range (s : str) (pos : Z) : outcome subrange :=
  if (0 <=? pos)%Z then
    let* offset := get_char_pos s pos in
    if offset =? npos then Ok (Sub (size s) 0)
    else get_next_char_range s offset
  else if (pos <? -1)%Z then
    let* offset := get_char_pos s (pos + 1)%Z in
    if offset =? npos then Ok (Sub 0 0)
    else get_prev_char_range s offset
  else get_prev_char_range s (size s).

(** AlgorithmUtilities.cpp:32-37 *)
Definition get_capped_char_pos (s : str) (pos : Z) : outcome N :=
  let* p := get_char_pos s pos in
  if negb (p =? npos) then Ok p
  else Ok (if (0 <? pos)%Z then size s else 0).

(** AlgorithmUtilities.cpp:46-76 *)
Definition get_char_substring_range (s : str) (start_index end_index : Z) : outcome subrange :=
  let end_index :=
    if ((end_index <? start_index) && Bool.eqb (0 <=? start_index) (0 <=? end_index))%Z
    then start_index else end_index in
  if ((0 <=? start_index) && (0 <=? end_index))%Z then
    let* st := get_capped_char_pos s start_index in
    let* t := substr_from s st in
    let* d := signed (end_index - start_index) in
    let* e := get_capped_char_pos t d in
    Ok (Sub st e)
  else if ((start_index <? 0) && (end_index <? 0))%Z then
    let* e := get_capped_char_pos s end_index in
    let* t := substr s 0 e in
    let* d := signed (start_index - end_index) in
    let* st := get_capped_char_pos t d in
    Ok (Sub st (sub64 e st))
  else if ((0 <=? start_index) && (end_index <? 0))%Z then
    let* st := get_capped_char_pos s start_index in
    let* t := substr_from s st in
    let* e := get_capped_char_pos t end_index in
    Ok (Sub st (sub64 e st))
  else
    let* st := get_capped_char_pos s start_index in
    let* e := get_capped_char_pos s end_index in
    Ok (Sub st (if st <? e then sub64 e st else 0)).

(** Algorithms.cpp:221-227 *)
Definition get_char_substring (s : str) (start_index end_index : Z) : outcome str :=
  let* r := get_char_substring_range s start_index end_index in
  substr s (sub_offset r) (sub_length r).

(** Algorithms.cpp:317-321 *)
Definition insert_char (s : str) (pos : Z) (chr : N) : outcome str :=
  let* o := get_char_pos s pos in insert_at_offset_cp s o chr.

(** Algorithms.cpp:323-327 *)
Definition insert_chars (s : str) (pos : Z) (sub : str) : outcome str :=
  let* o := get_char_pos s pos in insert_at_offset_str s o sub.

(** Algorithms.cpp:391-397 *)
Definition replace_chars (s : str) (start end_ : Z) (repl : str) : outcome str :=
  let* r := get_char_substring_range s start end_ in
  replace_subrange s r repl.

(** Algorithms.cpp:456-463; [insert(end, b, e)] requires b <= e <= size. *)
Fixpoint reverse_loop (fuel : nat) (s : str) (offset : N) (result : str) : outcome str :=
  match fuel with
  | O => OutOfFuel
  | S fuel' =>
    if negb (offset =? 0) then
      let* range := get_prev_char_range s offset in
      let* b := begin_plus s (sub_start range) in
      let* e := begin_plus s (sub_end range) in
      reverse_loop fuel' s (sub_start range) (result ++ slice s b e)
    else Ok result
  end.

(** Algorithms.cpp:452-465 *)
Definition reverse (s : str) : outcome str := reverse_loop (S (length s)) s (size s) [].
