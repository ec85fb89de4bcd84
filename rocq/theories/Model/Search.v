(** Model of the parts of src/Ystring/Algorithms.cpp, include/Ystring/Algorithms.hpp
    and src/Ystring/AlgorithmUtilities.{hpp,cpp} that do not look at character
    classes or case: appending, searching, validity, replacing, joining. *)
From Verif Require Import Base Model.Decode Model.Encode Model.Subrange.

(** Algorithms.cpp:31-36 [append(std::string&, char32_t)]: outcome and new
    value of [str].  [encode_utf8] returns 0 exactly when it writes nothing. *)
Definition append_to (s : str) (chr : N) : outcome unit * str :=
  let (bytes, n) := encode_utf8 chr in
  let s' := s ++ bytes in
  if n =? 0 then (Throw YstringException, s') else (Ok tt, s').

(** Algorithms.cpp:38-43 *)
Definition append (s : str) (chr : N) : outcome str :=
  let (r, s') := append_to s chr in
  let* _ := r in Ok s'.

(** Algorithms.cpp:49-53 *)
Fixpoint contains_loop (fuel : nat) (s : str) (chr : N) (it : nat) : outcome bool :=
  match fuel with
  | O => OutOfFuel
  | S fuel' =>
    let* r := safe_decode_next s it in
    match r with
    | None => Ok false
    | Some (ch, it') => if ch =? chr then Ok true else contains_loop fuel' s chr it'
    end
  end.

(** Algorithms.cpp:45-55 [contains(string_view, char32_t)] *)
Definition contains (s : str) (chr : N) : outcome bool :=
  contains_loop (S (length s)) s chr 0.

(** Char32Set.cpp:67-70 [contains(u32string_view, char32_t)] *)
Definition u32_contains (span : u32str) (cp : N) : bool :=
  existsb (fun c => c =? cp) span.

(** Algorithms.cpp:75-76 *)
Fixpoint count_codepoints_loop (fuel : nat) (s : str) (it : nat) (result : N) : outcome N :=
  match fuel with
  | O => OutOfFuel
  | S fuel' =>
    let* r := skip_next s it in
    match r with
    | None => Ok result
    | Some it' => count_codepoints_loop fuel' s it' (add64 result 1)
    end
  end.

(** Algorithms.cpp:70-78 *)
Definition count_codepoints (s : str) : outcome N :=
  count_codepoints_loop (S (length s)) s 0 0.

(** Algorithms.cpp:80-84 *)
Definition ends_with (s cmp : str) : outcome bool :=
  if size cmp <=? size s
  then let* t := substr_from s (sub64 (size s) (size cmp)) in Ok (str_eqb t cmp)
  else Ok false.

(** Algorithms.cpp:493-496 *)
Definition starts_with (s cmp : str) : outcome bool :=
  if size cmp <=? size s
  then let* t := substr s 0 (size cmp) in Ok (str_eqb t cmp)
  else Ok false.

(** Algorithms.cpp:86-95 *)
Definition find_first (s cmp : str) (offset : N) : outcome subrange :=
  let* b := begin_plus s offset in
  let it := std_search s cmp b in
  if Nat.eqb it (length s) then Ok (Sub (size s) 0)
  else Ok (Sub (N.of_nat it) (size cmp)).

(** AlgorithmUtilities.hpp:23-31, the loop of [search_last] on
    [[0, e)] of [s]: [std::mismatch(it, end, cmpBeg, cmpEnd)] consumes all of
    [cmp] iff [cmp] is a prefix of [[it, end)]. *)
Fixpoint search_last_loop (s cmp : str) (e it : nat) : nat * nat :=
  if prefix_eqb cmp (slice s it e) then (it, (it + length cmp)%nat)
  else match it with
       | O => (0%nat, 0%nat)
       | S it' => search_last_loop s cmp e it'
       end.

(** AlgorithmUtilities.hpp:14-33 [search_last(beg, end, cmpBeg, cmpEnd)] with
    [beg] the start of [s] and [end] its position [e]. *)
Definition search_last (s : str) (e : nat) (cmp : str) : nat * nat :=
  if Nat.eqb (length cmp) 0 || Nat.ltb e (length cmp) then (0%nat, 0%nat)
  else search_last_loop s cmp e (e - length cmp)%nat.

(** Algorithms.cpp:125-134 *)
Definition find_last (s cmp : str) (offset : N) : outcome subrange :=
  let offset := N.min offset (size s) in
  let* e := begin_plus s offset in
  let (a, b) := search_last s e cmp in
  Ok (Sub (N.of_nat a) (N.of_nat (b - a))).

(** Algorithms.hpp:139-144 *)
Fixpoint find_first_where_loop (fuel : nat) (s : str) (pred : N -> bool) (prev it : nat)
  : outcome (subrange * N) :=
  match fuel with
  | O => OutOfFuel
  | S fuel' =>
    let* r := safe_decode_next s it in
    match r with
    | None => Ok (sub_at npos, INVALID_CHAR)
    | Some (ch, it') =>
      if pred ch then Ok (sub_its 0 prev it', ch)
      else find_first_where_loop fuel' s pred it' it'
    end
  end.

(** Algorithms.hpp:131-146 *)
Definition find_first_where (s : str) (pred : N -> bool) (offset : N) : outcome (subrange * N) :=
  let* it := begin_plus s offset in
  find_first_where_loop (S (length s)) s pred it it.

(** Algorithms.hpp:205-210 *)
Fixpoint find_last_where_loop (fuel : nat) (s : str) (pred : N -> bool) (it e : nat)
  : outcome (subrange * N) :=
  match fuel with
  | O => OutOfFuel
  | S fuel' =>
    let* r := safe_decode_prev s it in
    match r with
    | None => Ok (sub_at npos, INVALID_CHAR)
    | Some (ch, it') =>
      if pred ch then Ok (sub_its 0 it' e, ch)
      else find_last_where_loop fuel' s pred it' it'
    end
  end.

(** Algorithms.hpp:196-212 *)
Definition find_last_where (s : str) (pred : N -> bool) (offset : N) : outcome (subrange * N) :=
  let offset := N.min offset (size s) in
  let* it := begin_plus s offset in
  find_last_where_loop (S (length s)) s pred it it.

(** Algorithms.cpp:109-115 *)
Definition find_first_of (s : str) (chars : u32str) (offset : N) : outcome (subrange * N) :=
  find_first_where s (fun c => u32_contains chars c) offset.

(** Algorithms.cpp:148-155 *)
Definition find_last_of (s : str) (chars : u32str) (offset : N) : outcome (subrange * N) :=
  find_last_where s (fun c => u32_contains chars c) offset.

(** [std::u32string_view(const char32_t* )]: the characters up to the first
    zero.  [mem] is what the array's memory holds from its first element on;
    running out of known memory is undefined behaviour.  The C++20 overload set
    of std::u32string_view has no array constructor. *)
Fixpoint u32view_of_ptr (mem : list N) : outcome u32str :=
  match mem with
  | [] => UB
  | c :: mem' => if c =? 0 then Ok [] else let* v := u32view_of_ptr mem' in Ok (c :: v)
  end.

(** Algorithms.cpp:20-28; the array has no terminating zero. *)
Definition NEWLINES : list N :=
  [0x0A; 0x0B; 0x0C; 0x0D; NEXT_LINE; LINE_SEPARATOR; PARAGRAPH_SEPARATOR].

(** Algorithms.hpp:29 *)
Definition ASCII_WHITESPACE : list N := [0x20; 0x09; 0x0A; 0x0D; 0x0C; 0x0B].

(** Algorithms.hpp:30 *)
Definition COMMON_WHITESPACE : list N := [0x20; 0x09; 0x0A; 0x0D].

(** Algorithms.cpp:97-107.  [after] is the memory following the array NEWLINES. *)
Definition find_first_newline (after : list N) (s : str) (offset : N) : outcome subrange :=
  let* chars := u32view_of_ptr (NEWLINES ++ after) in
  let* p := find_first_of s chars offset in
  let (sub, c) := p in
  if negb (c =? 0x0D) then Ok sub
  else
    let* it := begin_plus s (sub_end sub) in
    let* r := safe_decode_next s it in
    match r with
    | Some (ch, it') =>
      if ch =? 0x0A
      then Ok (Sub (sub_start sub) (sub64 (N.of_nat it') (sub_start sub)))
      else Ok sub
    | None => Ok sub
    end.

(** Algorithms.cpp:136-146 *)
Definition find_last_newline (after : list N) (s : str) (offset : N) : outcome subrange :=
  let* chars := u32view_of_ptr (NEWLINES ++ after) in
  let* p := find_last_of s chars offset in
  let (sub, c) := p in
  if negb (c =? 0x0A) then Ok sub
  else
    let* it := begin_plus s (sub_start sub) in
    let* r := safe_decode_prev s it in
    match r with
    | Some (ch, it') =>
      if ch =? 0x0D
      then let* e := begin_plus s (sub_end sub) in Ok (sub_its 0 it' e)
      else Ok sub
    | None => Ok sub
    end.

(** Algorithms.cpp:235-236 and 263-264,
    [while (pos > 0 && skip_next(it, str.end())) --pos] *)
Fixpoint skip_next_n (fuel : nat) (s : str) (pos : Z) (it : nat) : outcome (Z * nat) :=
  match fuel with
  | O => OutOfFuel
  | S fuel' =>
    if (0 <? pos)%Z then
      let* r := skip_next s it in
      match r with
      | None => Ok (pos, it)
      | Some it' => skip_next_n fuel' s (pos - 1)%Z it'
      end
    else Ok (pos, it)
  end.

(** Algorithms.cpp:246-247 and 271-272,
    [while (pos < limit && skip_prev(str.begin(), it)) ++pos] *)
Fixpoint skip_prev_n (fuel : nat) (s : str) (limit pos : Z) (it : nat) : outcome (Z * nat) :=
  match fuel with
  | O => OutOfFuel
  | S fuel' =>
    if (pos <? limit)%Z then
      let* r := skip_prev s it in
      match r with
      | None => Ok (pos, it)
      | Some it' => skip_prev_n fuel' s limit (pos + 1)%Z it'
      end
    else Ok (pos, it)
  end.

(** Algorithms.cpp:229-254 *)
Definition get_codepoint (s : str) (pos : Z) : outcome (subrange * N) :=
  if (0 <=? pos)%Z then
    let* p := skip_next_n (S (length s)) s pos 0 in
    let (_, prev) := p in
    let* r := safe_decode_next s prev in
    match r with
    | Some (ch, it) => Ok (sub_its 0 prev it, ch)
    | None => Ok (Sub (size s) 0, INVALID_CHAR)
    end
  else
    let* p := skip_prev_n (S (length s)) s (-1) pos (length s) in
    let (_, next) := p in
    let* r := safe_decode_prev s next in
    match r with
    | Some (ch, it) => Ok (sub_its 0 it next, ch)
    | None => Ok (Sub 0 0, INVALID_CHAR)
    end.

(** Algorithms.cpp:256-277.  [std::abs] of the most negative value is
    undefined; [ptrdiff_t(str.size())] is exact for every possible string. *)
Definition get_codepoint_pos (s : str) (pos : Z) : outcome N :=
  let* a := signed (Z.abs pos) in
  if (Z.of_N (size s) <? a)%Z then Ok npos
  else if (0 <=? pos)%Z then
    let* p := skip_next_n (S (length s)) s pos 0 in
    let (pos, it) := p in
    if (pos =? 0)%Z then Ok (N.of_nat it) else Ok npos
  else
    let* p := skip_prev_n (S (length s)) s 0 pos (length s) in
    let (pos, it) := p in
    if (pos =? 0)%Z then Ok (N.of_nat it) else Ok npos.

(** AlgorithmUtilities.cpp:39-44 *)
Definition get_capped_codepoint_pos (s : str) (pos : Z) : outcome N :=
  let* p := get_codepoint_pos s pos in
  if negb (p =? npos) then Ok p
  else Ok (if (0 <? pos)%Z then size s else 0).

(** AlgorithmUtilities.cpp:78-108 *)
Definition get_codepoint_substring_range (s : str) (start_index end_index : Z) : outcome subrange :=
  let end_index :=
    if ((end_index <? start_index) && Bool.eqb (0 <=? start_index) (0 <=? end_index))%Z
    then start_index else end_index in
  if ((0 <=? start_index) && (0 <=? end_index))%Z then
    let* st := get_capped_codepoint_pos s start_index in
    let* t := substr_from s st in
    let* d := signed (end_index - start_index) in
    let* e := get_capped_codepoint_pos t d in
    Ok (Sub st e)
  else if ((start_index <? 0) && (end_index <? 0))%Z then
    let* e := get_capped_codepoint_pos s end_index in
    let* t := substr s 0 e in
    let* d := signed (start_index - end_index) in
    let* st := get_capped_codepoint_pos t d in
    Ok (Sub st (sub64 e st))
  else if ((0 <=? start_index) && (end_index <? 0))%Z then
    let* st := get_capped_codepoint_pos s start_index in
    let* t := substr_from s st in
    let* e := get_capped_codepoint_pos t end_index in
    Ok (Sub st e)
  else
    let* st := get_capped_codepoint_pos s start_index in
    let* e := get_capped_codepoint_pos s end_index in
    Ok (Sub st (N.max st e)).

(** Algorithms.cpp:279-285 *)
Definition get_codepoint_substring (s : str) (start_index end_index : Z) : outcome str :=
  let* r := get_codepoint_substring_range s start_index end_index in
  substr s (sub_offset r) (sub_length r).

(** AlgorithmUtilities.cpp:110-121 *)
Definition insert_at_offset_str (s : str) (offset : N) (codepoints : str) : outcome str :=
  match codepoints with
  | [] => Ok s
  | _ =>
    if offset =? npos then Throw YstringException
    else
      let* a := substr s 0 offset in
      let* b := substr_from s offset in
      Ok (a ++ codepoints ++ b)
  end.

(** AlgorithmUtilities.cpp:123-132 *)
Definition insert_at_offset_cp (s : str) (offset : N) (codepoint : N) : outcome str :=
  if offset =? npos then Throw YstringException
  else
    let* a := substr s 0 offset in
    let* r := append a codepoint in
    let* b := substr_from s offset in
    Ok (r ++ b).

(** Algorithms.cpp:329-333 *)
Definition insert_codepoint (s : str) (pos : Z) (codepoint : N) : outcome str :=
  let* o := get_codepoint_pos s pos in insert_at_offset_cp s o codepoint.

(** Algorithms.cpp:335-340 *)
Definition insert_codepoints (s : str) (pos : Z) (codepoints : str) : outcome str :=
  let* o := get_codepoint_pos s pos in insert_at_offset_str s o codepoints.

(** Algorithms.cpp:345-349 *)
Fixpoint is_valid_utf8_loop (fuel : nat) (s : str) (it : nat) : outcome bool :=
  match fuel with
  | O => OutOfFuel
  | S fuel' =>
    if Nat.eqb it (length s) then Ok true
    else
      let* p := decode_next s it in
      let (ch, it') := p in
      if ch =? INVALID_CHAR then Ok false else is_valid_utf8_loop fuel' s it'
  end.

(** Algorithms.cpp:342-351 *)
Definition is_valid_utf8 (s : str) : outcome bool := is_valid_utf8_loop (S (length s)) s 0.

(** AlgorithmUtilities.cpp:19-28; [--max_count] wraps at 0. *)
Fixpoint find_last_n_loop (fuel : nat) (s cmp : str) (max_count : N) (it : nat)
    (result : list subrange) : outcome (list subrange) :=
  match fuel with
  | O => OutOfFuel
  | S fuel' =>
    let (a, b) := search_last s it cmp in
    if Nat.eqb a b then Ok result
    else
      let result := result ++ [Sub (N.of_nat a) (size cmp)] in
      let max_count := sub64 max_count 1 in
      if max_count =? 0 then Ok result
      else find_last_n_loop fuel' s cmp max_count a result
  end.

(** AlgorithmUtilities.cpp:12-30 *)
Definition find_last_n (s cmp : str) (max_count : N) : outcome (list subrange) :=
  find_last_n_loop (S (length s)) s cmp max_count (length s) [].

(** Algorithms.cpp:362-370 *)
Fixpoint replace_front_loop (fuel : nat) (s from to : str) (m : Z) (it : nat) (result : str)
  : outcome (str * nat) :=
  match fuel with
  | O => OutOfFuel
  | S fuel' =>
    if (0 <? m)%Z then
      let mt := std_search s from it in
      if Nat.eqb mt (length s) then Ok (result, it)
      else replace_front_loop fuel' s from to (m - 1)%Z (mt + length from)%nat
             (result ++ slice s it mt ++ to)
    else Ok (result, it)
  end.

(** Algorithms.cpp:378-384; [matches] is already reversed. *)
Fixpoint replace_back_loop (s to : str) (matches : list subrange) (prev : N) (result : str)
  : outcome (str * N) :=
  match matches with
  | [] => Ok (result, prev)
  | r :: matches' =>
    let* result :=
      if negb (sub_offset r =? prev)
      then let* t := substr s prev (sub64 (sub_offset r) prev) in Ok (result ++ t)
      else Ok result in
    replace_back_loop s to matches' (sub_end r) (result ++ to)
  end.

(** Algorithms.cpp:353-389.  The front loop makes at most [max_replacements]
    iterations, and with a non-empty [from] at most [length s + 1]. *)
Definition replace (s from to : str) (max_replacements : Z) : outcome str :=
  if (0 <=? max_replacements)%Z then
    let fuel := match from with [] => S (Z.to_nat max_replacements) | _ => S (length s) end in
    let* p := replace_front_loop fuel s from to max_replacements 0 [] in
    let (result, it) := p in
    Ok (if negb (Nat.eqb it (length s)) then result ++ skipn it s else result)
  else
    let* n := signed (- max_replacements) in
    let* matches := find_last_n s from (Z.to_N n) in
    let* p := replace_back_loop s to (rev matches) 0 [] in
    let (result, prev) := p in
    if negb (prev =? size s)
    then let* t := substr s prev (size s) in Ok (result ++ t)
    else Ok result.

(** AlgorithmUtilities.cpp:134-142 *)
Definition replace_subrange (s : str) (range : subrange) (repl : str) : outcome str :=
  let* a := substr s 0 (sub_start range) in
  let* b := substr_from s (sub_end range) in
  Ok (a ++ repl ++ b).

(** Algorithms.cpp:399-405 *)
Definition replace_codepoints (s : str) (start end_ : Z) (repl : str) : outcome str :=
  let* r := get_codepoint_substring_range s start end_ in
  replace_subrange s r repl.

(** Algorithms.cpp:407-422 *)
Definition replace_codepoint (s : str) (from to : N) (max_replacements : Z) : outcome str :=
  let (f, f_size) := encode_utf8_buf from 4 in
  let (t, t_size) := encode_utf8_buf to 4 in
  if f_size =? 0 then Throw YstringException
  else if t_size =? 0 then Throw YstringException
  else replace s f t max_replacements.

(** Algorithms.cpp:432-440 *)
Fixpoint replace_invalid_loop (fuel : nat) (s repl : str) (it prev : nat) (result : str)
  : outcome (str * nat) :=
  match fuel with
  | O => OutOfFuel
  | S fuel' =>
    if Nat.eqb it (length s) then Ok (result, prev)
    else
      let* p := decode_next s it in
      let (ch, it) := p in
      if negb (ch =? INVALID_CHAR) then replace_invalid_loop fuel' s repl it prev result
      else
        let result := result ++ slice s prev it ++ repl in
        let* r := skip_next s it in
        let it := match r with Some it' => it' | None => it end in
        replace_invalid_loop fuel' s repl it it result
  end.

(** Algorithms.cpp:424-443 [replace_invalid_utf8(std::string_view, char32_t)] *)
Definition replace_invalid_utf8 (s : str) (chr : N) : outcome str :=
  let (repl, _) := encode_utf8_buf chr 4 in
  let* p := replace_invalid_loop (S (length s)) s repl 0 0 [] in
  let (result, prev) := p in
  Ok (result ++ skipn prev s).

(** Algorithms.cpp:445-450 [replace_invalid_utf8(std::string&, char32_t)]: the
    new value of [str]. *)
Definition replace_invalid_utf8_inplace (s : str) (chr : N) : outcome str :=
  let* v := is_valid_utf8 s in
  if v then Ok s else replace_invalid_utf8 s chr.

(** Algorithms.hpp:367-371 *)
Fixpoint join_loop (l : list str) (delimiter result : str) : str :=
  match l with
  | [] => result
  | x :: l' => join_loop l' delimiter (result ++ delimiter ++ x)
  end.

(** Algorithms.hpp:360-373 *)
Definition join (l : list str) (delimiter : str) : str :=
  match l with
  | [] => []
  | x :: l' => join_loop l' delimiter x
  end.

(** Algorithms.hpp:562-570 *)
Definition trim_end_where (s : str) (pred : N -> bool) : outcome str :=
  let* p := find_last_where s (fun c => negb (pred c)) npos in
  let (sub, _) := p in
  if negb (sub_bool sub) then Ok [] else substr s 0 (sub_end sub).

(** Algorithms.hpp:585-593 *)
Definition trim_start_where (s : str) (pred : N -> bool) : outcome str :=
  let* p := find_first_where s (fun c => negb (pred c)) 0 in
  let (sub, _) := p in
  if negb (sub_bool sub) then Ok [] else substr_from s (sub_start sub).

(** Algorithms.hpp:599-605 *)
Definition trim_where (s : str) (pred : N -> bool) : outcome str :=
  let* t := trim_start_where s pred in trim_end_where t pred.

(** Algorithms.cpp:503-506 *)
Definition trim_end (s : str) (chars : u32str) : outcome str :=
  trim_end_where s (fun c => u32_contains chars c).

(** Algorithms.cpp:508-511 *)
Definition trim_start (s : str) (chars : u32str) : outcome str :=
  trim_start_where s (fun c => u32_contains chars c).

(** Algorithms.cpp:498-501 *)
Definition trim (s : str) (chars : u32str) : outcome str :=
  let* t := trim_start s chars in trim_end t chars.

(** The three functions with their default argument (Algorithms.hpp:547, 556
    and 579): COMMON_WHITESPACE converted from an array.  [after] is the memory
    following the array. *)
Definition trim_default (after : list N) (s : str) : outcome str :=
  let* chars := u32view_of_ptr (COMMON_WHITESPACE ++ after) in trim s chars.
Definition trim_start_default (after : list N) (s : str) : outcome str :=
  let* chars := u32view_of_ptr (COMMON_WHITESPACE ++ after) in trim_start s chars.
Definition trim_end_default (after : list N) (s : str) : outcome str :=
  let* chars := u32view_of_ptr (COMMON_WHITESPACE ++ after) in trim_end s chars.
