(** Model of the texts carried by the exceptions, continued: the functions of
    Model/Encode.v, Search.v, Chars.v, ConvertCase.v, CodepointSet.v, Split.v,
    CaseInsensitive.v and Normalize.v that decode UTF-8, with the message added to
    the outcome as in Model/Messages.v.  Calls that throw no YstringException are
    those of the models without messages ([mlift]). *)
From Verif Require Import Base Model.Decode Model.Encode Model.Subrange Model.Search Model.CharClass Model.Chars Model.ConvertCase
  Model.CodepointSet Model.Split Model.CaseInsensitive Model.Normalize Model.Messages.

Section Files.
Context (file : source -> str).

(** Utf32.cpp:35-36, the loop of [to_utf32].  Each iteration advances [it], so
    [fuel = length + 1] is never exhausted (proved). *)
Fixpoint to_utf32_loop_m (fuel : nat) (s : str) (it : nat) (result : u32str) : mout u32str :=
  match fuel with
  | O => MFuel
  | S fuel' =>
    let! r := safe_decode_next_m file s it in
    match r with
    | None => MOk result
    | Some (ch, it') => to_utf32_loop_m fuel' s it' (result ++ [ch])
    end
  end.

(** Utf32.cpp:30-38 *)
Definition to_utf32_m (s : str) : mout u32str := to_utf32_loop_m (S (length s)) s 0 [].

(** Algorithms.cpp:49-53 *)
Fixpoint contains_loop_m (fuel : nat) (s : str) (chr : N) (it : nat) : mout bool :=
  match fuel with
  | O => MFuel
  | S fuel' =>
    let! r := safe_decode_next_m file s it in
    match r with
    | None => MOk false
    | Some (ch, it') => if ch =? chr then MOk true else contains_loop_m fuel' s chr it'
    end
  end.

(** Algorithms.cpp:45-55 [contains(string_view, char32_t)] *)
Definition contains_m (s : str) (chr : N) : mout bool :=
  contains_loop_m (S (length s)) s chr 0.

(** Algorithms.hpp:139-144 *)
Fixpoint find_first_where_loop_m (fuel : nat) (s : str) (pred : N -> bool) (prev it : nat)
  : mout (subrange * N) :=
  match fuel with
  | O => MFuel
  | S fuel' =>
    let! r := safe_decode_next_m file s it in
    match r with
    | None => MOk (sub_at npos, INVALID_CHAR)
    | Some (ch, it') =>
      if pred ch then MOk (sub_its 0 prev it', ch)
      else find_first_where_loop_m fuel' s pred it' it'
    end
  end.

(** Algorithms.hpp:131-146 *)
Definition find_first_where_m (s : str) (pred : N -> bool) (offset : N) : mout (subrange * N) :=
  let! it := mlift (begin_plus s offset) in
  find_first_where_loop_m (S (length s)) s pred it it.

(** Algorithms.hpp:205-210 *)
Fixpoint find_last_where_loop_m (fuel : nat) (s : str) (pred : N -> bool) (it e : nat)
  : mout (subrange * N) :=
  match fuel with
  | O => MFuel
  | S fuel' =>
    let! r := safe_decode_prev_m file s it in
    match r with
    | None => MOk (sub_at npos, INVALID_CHAR)
    | Some (ch, it') =>
      if pred ch then MOk (sub_its 0 it' e, ch)
      else find_last_where_loop_m fuel' s pred it' it'
    end
  end.

(** Algorithms.hpp:196-212 *)
Definition find_last_where_m (s : str) (pred : N -> bool) (offset : N) : mout (subrange * N) :=
  let offset := N.min offset (size s) in
  let! it := mlift (begin_plus s offset) in
  find_last_where_loop_m (S (length s)) s pred it it.

(** Algorithms.cpp:109-115 *)
Definition find_first_of_m (s : str) (chars : u32str) (offset : N) : mout (subrange * N) :=
  find_first_where_m s (fun c => u32_contains chars c) offset.

(** Algorithms.cpp:148-155 *)
Definition find_last_of_m (s : str) (chars : u32str) (offset : N) : mout (subrange * N) :=
  find_last_where_m s (fun c => u32_contains chars c) offset.

(** Algorithms.cpp:97-107.  [after] is the memory following the array NEWLINES. *)
Definition find_first_newline_m (after : list N) (s : str) (offset : N) : mout subrange :=
  let! chars := mlift (u32view_of_ptr (NEWLINES ++ after)) in
  let! p := find_first_of_m s chars offset in
  let (sub, c) := p in
  if negb (c =? 0x0D) then MOk sub
  else
    let! it := mlift (begin_plus s (sub_end sub)) in
    let! r := safe_decode_next_m file s it in
    match r with
    | Some (ch, it') =>
      if ch =? 0x0A
      then MOk (Sub (sub_start sub) (sub64 (N.of_nat it') (sub_start sub)))
      else MOk sub
    | None => MOk sub
    end.

(** Algorithms.cpp:136-146 *)
Definition find_last_newline_m (after : list N) (s : str) (offset : N) : mout subrange :=
  let! chars := mlift (u32view_of_ptr (NEWLINES ++ after)) in
  let! p := find_last_of_m s chars offset in
  let (sub, c) := p in
  if negb (c =? 0x0A) then MOk sub
  else
    let! it := mlift (begin_plus s (sub_start sub)) in
    let! r := safe_decode_prev_m file s it in
    match r with
    | Some (ch, it') =>
      if ch =? 0x0D
      then let! e := mlift (begin_plus s (sub_end sub)) in MOk (sub_its 0 it' e)
      else MOk sub
    | None => MOk sub
    end.

(** Algorithms.cpp:229-254 *)
Definition get_codepoint_m (s : str) (pos : Z) : mout (subrange * N) :=
  if (0 <=? pos)%Z then
    let! p := mlift (skip_next_n (S (length s)) s pos 0) in
    let (_, prev) := p in
    let! r := safe_decode_next_m file s prev in
    match r with
    | Some (ch, it) => MOk (sub_its 0 prev it, ch)
    | None => MOk (Sub (size s) 0, INVALID_CHAR)
    end
  else
    let! p := mlift (skip_prev_n (S (length s)) s (-1) pos (length s)) in
    let (_, next) := p in
    let! r := safe_decode_prev_m file s next in
    match r with
    | Some (ch, it) => MOk (sub_its 0 it next, ch)
    | None => MOk (Sub 0 0, INVALID_CHAR)
    end.

(** Algorithms.hpp:562-570 *)
Definition trim_end_where_m (s : str) (pred : N -> bool) : mout str :=
  let! p := find_last_where_m s (fun c => negb (pred c)) npos in
  let (sub, _) := p in
  if negb (sub_bool sub) then MOk [] else mlift (substr s 0 (sub_end sub)).

(** Algorithms.hpp:585-593 *)
Definition trim_start_where_m (s : str) (pred : N -> bool) : mout str :=
  let! p := find_first_where_m s (fun c => negb (pred c)) 0 in
  let (sub, _) := p in
  if negb (sub_bool sub) then MOk [] else mlift (substr_from s (sub_start sub)).

(** Algorithms.hpp:599-605 *)
Definition trim_where_m (s : str) (pred : N -> bool) : mout str :=
  let! t := trim_start_where_m s pred in trim_end_where_m t pred.

(** Algorithms.cpp:503-506 *)
Definition trim_end_m (s : str) (chars : u32str) : mout str :=
  trim_end_where_m s (fun c => u32_contains chars c).

(** Algorithms.cpp:508-511 *)
Definition trim_start_m (s : str) (chars : u32str) : mout str :=
  trim_start_where_m s (fun c => u32_contains chars c).

(** Algorithms.cpp:498-501 *)
Definition trim_m (s : str) (chars : u32str) : mout str :=
  let! t := trim_start_m s chars in trim_end_m t chars.

(** The three functions with their default argument (Algorithms.hpp:547, 556
    and 579): COMMON_WHITESPACE converted from an array.  [after] is the memory
    following the array. *)
Definition trim_default_m (after : list N) (s : str) : mout str :=
  let! chars := mlift (u32view_of_ptr (COMMON_WHITESPACE ++ after)) in trim_m s chars.

(** The three functions with their default argument (Algorithms.hpp:547, 556
    and 579): COMMON_WHITESPACE converted from an array.  [after] is the memory
    following the array. *)
Definition trim_start_default_m (after : list N) (s : str) : mout str :=
  let! chars := mlift (u32view_of_ptr (COMMON_WHITESPACE ++ after)) in trim_start_m s chars.

(** The three functions with their default argument (Algorithms.hpp:547, 556
    and 579): COMMON_WHITESPACE converted from an array.  [after] is the memory
    following the array. *)
Definition trim_end_default_m (after : list N) (s : str) : mout str :=
  let! chars := mlift (u32view_of_ptr (COMMON_WHITESPACE ++ after)) in trim_end_m s chars.

(** Algorithms.cpp:295-299 *)
Fixpoint next_char_loop_m (fuel : nat) (s : str) (it e : nat) : mout nat :=
  match fuel with
  | O => MFuel
  | S fuel' =>
    let! r := safe_decode_next_m file s it in
    match r with
    | None => MOk e
    | Some (codepoint, it') =>
      if is_mark codepoint then next_char_loop_m fuel' s it' it' else MOk e
    end
  end.

(** Algorithms.cpp:287-302 *)
Definition get_next_char_range_m (s : str) (offset : N) : mout subrange :=
  let! it := mlift (begin_plus s offset) in
  let! r := safe_decode_next_m file s it in
  match r with
  | None => MOk (Sub offset 0)
  | Some (_, it) =>
    let! e := next_char_loop_m (S (length s)) s it it in
    MOk (Sub offset (sub64 (N.of_nat e) offset))
  end.

(** Algorithms.cpp:308-311 *)
Fixpoint prev_char_loop_m (fuel : nat) (s : str) (it : nat) : mout nat :=
  match fuel with
  | O => MFuel
  | S fuel' =>
    let! r := safe_decode_prev_m file s it in
    match r with
    | None => MOk it
    | Some (codepoint, it') => if is_mark codepoint then prev_char_loop_m fuel' s it' else MOk it'
    end
  end.

(** Algorithms.cpp:304-315 *)
Definition get_prev_char_range_m (s : str) (offset : N) : mout subrange :=
  let! it := mlift (begin_plus s offset) in
  let! it := prev_char_loop_m (S (length s)) s it in
  MOk (Sub (N.of_nat it) (sub64 offset (N.of_nat it))).

(** Algorithms.cpp:61-66 *)
Fixpoint count_chars_loop_m (fuel : nat) (s : str) (offset count : N) : mout N :=
  match fuel with
  | O => MFuel
  | S fuel' =>
    if negb (offset =? size s) then
      let! range := get_next_char_range_m s offset in
      count_chars_loop_m fuel' s (sub_end range) (add64 count 1)
    else MOk count
  end.

(** Algorithms.cpp:57-68 *)
Definition count_chars_m (s : str) : mout N := count_chars_loop_m (S (length s)) s 0 0.

(** Algorithms.cpp:172-178 *)
Fixpoint char_pos_fwd_m (fuel : nat) (s : str) (pos : Z) (offset : N) : mout N :=
  match fuel with
  | O => MFuel
  | S fuel' =>
    if (0 <? pos)%Z then
      let! range := get_next_char_range_m s offset in
      if negb (sub_bool range) then MOk npos
      else char_pos_fwd_m fuel' s (pos - 1)%Z (sub_end range)
    else MOk offset
  end.

(** Algorithms.cpp:183-189 *)
Fixpoint char_pos_bwd_m (fuel : nat) (s : str) (pos : Z) (offset : N) : mout N :=
  match fuel with
  | O => MFuel
  | S fuel' =>
    if (pos <? 0)%Z then
      let! range := get_prev_char_range_m s offset in
      if negb (sub_bool range) then MOk npos
      else char_pos_bwd_m fuel' s (pos + 1)%Z (sub_start range)
    else MOk offset
  end.

(** Algorithms.cpp:166-193 *)
Definition get_char_pos_m (s : str) (pos : Z) : mout N :=
  if (0 <=? pos)%Z then char_pos_fwd_m (S (S (length s))) s pos 0
  else char_pos_bwd_m (S (S (length s))) s pos (size s).

(** Algorithms.cpp:195-219 *)
Definition get_char_range_m (s : str) (pos : Z) : mout subrange :=
  if (0 <=? pos)%Z then
    let! offset := get_char_pos_m s pos in
    if offset =? npos then MOk (Sub (size s) 0)
    else get_next_char_range_m s offset
  else if (pos <? -1)%Z then
    let! offset := get_char_pos_m s (pos + 1)%Z in
    if offset =? npos then MOk (Sub 0 0)
    else get_prev_char_range_m s offset
  else get_prev_char_range_m s (size s).

(** AlgorithmUtilities.cpp:32-37 *)
Definition get_capped_char_pos_m (s : str) (pos : Z) : mout N :=
  let! p := get_char_pos_m s pos in
  if negb (p =? npos) then MOk p
  else MOk (if (0 <? pos)%Z then size s else 0).

(** AlgorithmUtilities.cpp:46-76 *)
Definition get_char_substring_range_m (s : str) (start_index end_index : Z) : mout subrange :=
  let end_index :=
    if ((end_index <? start_index) && Bool.eqb (0 <=? start_index) (0 <=? end_index))%Z
    then start_index else end_index in
  if ((0 <=? start_index) && (0 <=? end_index))%Z then
    let! st := get_capped_char_pos_m s start_index in
    let! t := mlift (substr_from s st) in
    let! d := mlift (signed (end_index - start_index)) in
    let! e := get_capped_char_pos_m t d in
    MOk (Sub st e)
  else if ((start_index <? 0) && (end_index <? 0))%Z then
    let! e := get_capped_char_pos_m s end_index in
    let! t := mlift (substr s 0 e) in
    let! d := mlift (signed (start_index - end_index)) in
    let! st := get_capped_char_pos_m t d in
    MOk (Sub st (sub64 e st))
  else if ((0 <=? start_index) && (end_index <? 0))%Z then
    let! st := get_capped_char_pos_m s start_index in
    let! t := mlift (substr_from s st) in
    let! e := get_capped_char_pos_m t end_index in
    MOk (Sub st (sub64 e st))
  else
    let! st := get_capped_char_pos_m s start_index in
    let! e := get_capped_char_pos_m s end_index in
    MOk (Sub st (if st <? e then sub64 e st else 0)).

(** Algorithms.cpp:221-227 *)
Definition get_char_substring_m (s : str) (start_index end_index : Z) : mout str :=
  let! r := get_char_substring_range_m s start_index end_index in
  mlift (substr s (sub_offset r) (sub_length r)).

(** Algorithms.cpp:317-321 *)
Definition insert_char_m (s : str) (pos : Z) (chr : N) : mout str :=
  let! o := get_char_pos_m s pos in insert_at_offset_cp_m file s o chr.

(** Algorithms.cpp:323-327 *)
Definition insert_chars_m (s : str) (pos : Z) (sub : str) : mout str :=
  let! o := get_char_pos_m s pos in insert_at_offset_str_m file s o sub.

(** Algorithms.cpp:391-397 *)
Definition replace_chars_m (s : str) (start end_ : Z) (repl : str) : mout str :=
  let! r := get_char_substring_range_m s start end_ in
  mlift (replace_subrange s r repl).

(** Algorithms.cpp:456-463; [insert(end, b, e)] requires b <= e <= size. *)
Fixpoint reverse_loop_m (fuel : nat) (s : str) (offset : N) (result : str) : mout str :=
  match fuel with
  | O => MFuel
  | S fuel' =>
    if negb (offset =? 0) then
      let! range := get_prev_char_range_m s offset in
      let! b := mlift (begin_plus s (sub_start range)) in
      let! e := mlift (begin_plus s (sub_end range)) in
      reverse_loop_m fuel' s (sub_start range) (result ++ slice s b e)
    else MOk result
  end.

(** Algorithms.cpp:452-465 *)
Definition reverse_m (s : str) : mout str := reverse_loop_m (S (length s)) s (size s) [].

(** ConvertCase.cpp:122-123 *)
Fixpoint to_lower_loop_m (fuel : nat) (s : str) (it : nat) (result : str) : mout str :=
  match fuel with
  | O => MFuel
  | S fuel' =>
    let! r := safe_decode_next_m file s it in
    match r with
    | None => MOk result
    | Some (ch, it') =>
      let! result := append_m file result (to_lower ch) in to_lower_loop_m fuel' s it' result
    end
  end.

(** ConvertCase.cpp:116-125 [to_lower(std::string_view)] *)
Definition to_lower_str_m (s : str) : mout str := to_lower_loop_m (S (length s)) s 0 [].

(** ConvertCase.cpp:134-155 *)
Fixpoint to_title_loop_m (fuel : nat) (s : str) (it : nat) (preceded_by_letter : bool) (result : str)
  : mout str :=
  match fuel with
  | O => MFuel
  | S fuel' =>
    let! r := safe_decode_next_m file s it in
    match r with
    | None => MOk result
    | Some (ch, it') =>
      if negb (is_letter ch) then
        let! result := append_m file result ch in to_title_loop_m fuel' s it' false result
      else if preceded_by_letter then
        let! result := append_m file result (to_lower ch) in
        to_title_loop_m fuel' s it' preceded_by_letter result
      else if negb (ch =? SHARP_S) then
        let! result := append_m file result (to_title ch) in to_title_loop_m fuel' s it' true result
      else to_title_loop_m fuel' s it' true (result ++ [x53; x73])    (* "Ss" *)
    end
  end.

(** ConvertCase.cpp:127-157 [to_title(std::string_view)] *)
Definition to_title_str_m (s : str) : mout str := to_title_loop_m (S (length s)) s 0 false [].

(** ConvertCase.cpp:165-171 *)
Fixpoint to_upper_loop_m (fuel : nat) (s : str) (it : nat) (result : str) : mout str :=
  match fuel with
  | O => MFuel
  | S fuel' =>
    let! r := safe_decode_next_m file s it in
    match r with
    | None => MOk result
    | Some (ch, it') =>
      if negb (ch =? SHARP_S) then
        let! result := append_m file result (to_upper ch) in to_upper_loop_m fuel' s it' result
      else to_upper_loop_m fuel' s it' (result ++ [x53; x53])         (* "SS" *)
    end
  end.

(** ConvertCase.cpp:159-173 [to_upper(std::string_view)] *)
Definition to_upper_str_m (s : str) : mout str := to_upper_loop_m (S (length s)) s 0 [].

(** Algorithms.cpp:117-123 [find_first_of(str, CodepointSet, offset)] *)
Definition find_first_of_set_m (s : str) (chars : cpset) (offset : N) : mout (subrange * N) :=
  find_first_where_m s (fun c => cps_contains chars c) offset.

(** Algorithms.cpp:157-164 [find_last_of(str, CodepointSet, offset)] *)
Definition find_last_of_set_m (s : str) (chars : cpset) (offset : N) : mout (subrange * N) :=
  find_last_where_m s (fun c => cps_contains chars c) offset.

(** TokenIterator.hpp:29-39 [next()] *)
Definition ti_next_m (finder : str -> mout subrange) (t : token_iterator)
  : mout (bool * token_iterator) :=
  let find (s : str) :=
    let! tok := finder s in
    MOk (true, TI s (if negb (sub_bool tok) then Sub SIZE_MAX (sub_length tok) else tok)) in
  if sub_bool (ti_token t) then
    let! s := mlift (substr_from (ti_str t) (sub_end (ti_token t))) in find s
  else if negb (sub_start (ti_token t) =? 0) then MOk (false, t)
  else find (ti_str t).

(** Algorithms.hpp:517-522.  Each iteration but the last shortens the remaining
    text when the finder returns ranges inside the text. *)
Fixpoint split_loop_m (fuel : nat) (finder : str -> mout subrange) (max_splits : N)
    (ignore_empty : bool) (t : token_iterator) (result : list str)
  : mout (list str * token_iterator) :=
  match fuel with
  | O => MFuel
  | S fuel' =>
    if N.of_nat (length result) <? max_splits then
      let! p := ti_next_m finder t in
      let (ok, t) := p in
      if ok then
        let! part := mlift (ti_part t) in
        let result := if negb ignore_empty || negb (is_nil part) then result ++ [part] else result in
        split_loop_m fuel' finder max_splits ignore_empty t result
      else MOk (result, t)
    else MOk (result, t)
  end.

(** Algorithms.hpp:509-530 *)
Definition split_where_m (s : str) (finder : str -> mout subrange) (max_splits : N)
    (ignore_empty : bool) : mout (list str) :=
  let! p := split_loop_m (S (S (length s))) finder max_splits ignore_empty (ti_init s) [] in
  let (result, t) := p in
  if ti_bool t then
    let! remainder := mlift (ti_remainder t) in
    MOk (if negb ignore_empty || negb (is_nil remainder) then result ++ [remainder] else result)
  else MOk result.

(** Algorithms.cpp:467-474 [split(str, u32string_view chars, params)] *)
Definition split_chars_m (s : str) (chars : u32str) (max_splits : N) (ignore_empty : bool)
  : mout (list str) :=
  split_where_m s (fun t => let! p := find_first_of_m t chars 0 in MOk (fst p)) max_splits ignore_empty.

(** Algorithms.cpp:485-491.  [after] is the memory following NEWLINES. *)
Definition split_lines_m (after : list N) (s : str) (max_splits : N) (ignore_empty : bool)
  : mout (list str) :=
  split_where_m s (fun t => find_first_newline_m after t 0) max_splits ignore_empty.

(** Algorithms.cpp:519-530.  [fuel] bounds the common prefix. *)
Fixpoint ci_compare_loop_m (fuel : nat) (s cmp : str) (s_it c_it : nat) : mout Z :=
  match fuel with
  | O => MFuel
  | S fuel' =>
    let! rs := safe_decode_next_m file s s_it in
    let! rc := safe_decode_next_m file cmp c_it in
    match rs, rc with
    | None, None => MOk 0%Z
    | Some _, None => MOk 1%Z
    | None, Some _ => MOk (-1)%Z
    | Some (s_ch, s_it'), Some (c_ch, c_it') =>
      let result := case_insensitive_compare s_ch c_ch in
      if negb (result =? 0)%Z then MOk result else ci_compare_loop_m fuel' s cmp s_it' c_it'
    end
  end.

(** Algorithms.cpp:515-531 *)
Definition ci_compare_m (s cmp : str) : mout Z := ci_compare_loop_m (S (length s)) s cmp 0 0.

(** Algorithms.cpp:544-555 *)
Fixpoint ci_equal_loop_m (fuel : nat) (s cmp : str) (s_it c_it : nat) : mout bool :=
  match fuel with
  | O => MFuel
  | S fuel' =>
    let! rs := safe_decode_next_m file s s_it in
    let! rc := safe_decode_next_m file cmp c_it in
    match rs, rc with
    | None, None => MOk true
    | Some _, None | None, Some _ => MOk false
    | Some (s_ch, s_it'), Some (c_ch, c_it') =>
      if negb (case_insensitive_equal s_ch c_ch) then MOk false
      else ci_equal_loop_m fuel' s cmp s_it' c_it'
    end
  end.

(** Algorithms.cpp:540-556 *)
Definition ci_equal_m (s cmp : str) : mout bool := ci_equal_loop_m (S (length s)) s cmp 0 0.

(** Algorithms.cpp:656-667 *)
Fixpoint ci_less_loop_m (fuel : nat) (s cmp : str) (s_it c_it : nat) : mout bool :=
  match fuel with
  | O => MFuel
  | S fuel' =>
    let! rs := safe_decode_next_m file s s_it in
    let! rc := safe_decode_next_m file cmp c_it in
    match rs, rc with
    | None, Some _ => MOk true
    | None, None | Some _, None => MOk false
    | Some (s_ch, s_it'), Some (c_ch, c_it') =>
      let result := case_insensitive_compare s_ch c_ch in
      if negb (result =? 0)%Z then MOk (result <? 0)%Z else ci_less_loop_m fuel' s cmp s_it' c_it'
    end
  end.

(** Algorithms.cpp:652-668 *)
Definition ci_less_m (s cmp : str) : mout bool := ci_less_loop_m (S (length s)) s cmp 0 0.

(** AlgorithmUtilities.hpp:40-62.  Range 1 is [[beg1, end)] of [s1], range 2 is
    [[beg2, end)] of [s2]. *)
Fixpoint next_ci_mismatch_m (fuel : nat) (s1 s2 : str) (beg1 beg2 : nat) : mout (nat * nat) :=
  match fuel with
  | O => MFuel
  | S fuel' =>
    let! r1 := safe_decode_next_m file s1 beg1 in
    match r1 with
    | None => MOk (beg1, beg2)
    | Some (ch1, it1) =>
      let! r2 := safe_decode_next_m file s2 beg2 in
      match r2 with
      | None => MOk (beg1, beg2)
      | Some (ch2, it2) =>
        if negb (case_insensitive_equal ch1 ch2) then MOk (beg1, beg2)
        else next_ci_mismatch_m fuel' s1 s2 it1 it2
      end
    end
  end.

(** AlgorithmUtilities.hpp:64-86.  Range 1 is [[begin, end1)] of [s1], range 2
    is [[begin, end2)] of [s2]. *)
Fixpoint prev_ci_mismatch_m (fuel : nat) (s1 s2 : str) (end1 end2 : nat) : mout (nat * nat) :=
  match fuel with
  | O => MFuel
  | S fuel' =>
    let! r1 := safe_decode_prev_m file s1 end1 in
    match r1 with
    | None => MOk (end1, end2)
    | Some (ch1, it1) =>
      let! r2 := safe_decode_prev_m file s2 end2 in
      match r2 with
      | None => MOk (end1, end2)
      | Some (ch2, it2) =>
        if negb (case_insensitive_equal ch1 ch2) then MOk (end1, end2)
        else prev_ci_mismatch_m fuel' s1 s2 it1 it2
      end
    end
  end.

(** Algorithms.cpp:736-741 *)
Definition ci_starts_with_m (s cmp : str) : mout bool :=
  let! p := next_ci_mismatch_m (S (length s)) s cmp 0 0 in
  MOk (Nat.eqb (snd p) (length cmp)).

(** Algorithms.cpp:533-538 *)
Definition ci_ends_with_m (s cmp : str) : mout bool :=
  let! p := prev_ci_mismatch_m (S (length s)) s cmp (length s) (length cmp) in
  MOk (Nat.eqb (snd p) 0).

(** Algorithms.cpp:570-580 *)
Fixpoint ci_find_first_loop_m (fuel : nat) (s cmp : str) (ch_cmp : N) (it_cmp it_str it_str_next : nat)
  : mout subrange :=
  match fuel with
  | O => MFuel
  | S fuel' =>
    let! r := safe_decode_next_m file s it_str_next in
    match r with
    | None => MOk sub_default
    | Some (ch_str, it_str_next) =>
      if case_insensitive_equal ch_str ch_cmp then
        let! p := next_ci_mismatch_m (S (length s)) s cmp it_str_next it_cmp in
        let (a, b) := p in
        if Nat.eqb b (length cmp) then MOk (sub_its 0 it_str a)
        else ci_find_first_loop_m fuel' s cmp ch_cmp it_cmp it_str_next it_str_next
      else ci_find_first_loop_m fuel' s cmp ch_cmp it_cmp it_str_next it_str_next
    end
  end.

(** Algorithms.cpp:558-582 *)
Definition ci_find_first_m (s cmp : str) (offset : N) : mout subrange :=
  let! r := safe_decode_next_m file cmp 0 in
  match r with
  | None => MOk sub_default
  | Some (ch_cmp, it_cmp) =>
    let! it_str := mlift (begin_plus s offset) in
    ci_find_first_loop_m (S (length s)) s cmp ch_cmp it_cmp it_str it_str
  end.

(** Algorithms.cpp:618-628 *)
Fixpoint ci_find_last_loop_m (fuel : nat) (s cmp : str) (ch_cmp : N) (it_cmp it_str it_str_prev : nat)
  : mout subrange :=
  match fuel with
  | O => MFuel
  | S fuel' =>
    let! r := safe_decode_prev_m file s it_str_prev in
    match r with
    | None => MOk sub_default
    | Some (ch_str, it_str_prev) =>
      if case_insensitive_equal ch_str ch_cmp then
        let! p := prev_ci_mismatch_m (S (length s)) s cmp it_str_prev it_cmp in
        let (a, b) := p in
        if Nat.eqb b 0 then MOk (sub_its 0 a it_str)
        else ci_find_last_loop_m fuel' s cmp ch_cmp it_cmp it_str_prev it_str_prev
      else ci_find_last_loop_m fuel' s cmp ch_cmp it_cmp it_str_prev it_str_prev
    end
  end.

(** Algorithms.cpp:604-630 *)
Definition ci_find_last_m (s cmp : str) (offset : N) : mout subrange :=
  let! r := safe_decode_prev_m file cmp (length cmp) in
  match r with
  | None => MOk sub_default
  | Some (ch_cmp, it_cmp) =>
    let offset := N.min offset (size s) in
    let! it_str := mlift (begin_plus s offset) in
    ci_find_last_loop_m (S (length s)) s cmp ch_cmp it_cmp it_str it_str
  end.

(** Algorithms.cpp:584-593 *)
Definition ci_find_first_of_m (s : str) (chars : u32str) (offset : N) : mout (subrange * N) :=
  find_first_where_m s (fun c => u32_ci_contains chars c) offset.

(** Algorithms.cpp:595-602 *)
Definition ci_find_first_of_set_m (s : str) (chars : cpset) (offset : N) : mout (subrange * N) :=
  find_first_where_m s (fun c => cps_ci_contains chars c) offset.

(** Algorithms.cpp:632-641 *)
Definition ci_find_last_of_m (s : str) (chars : u32str) (offset : N) : mout (subrange * N) :=
  find_last_where_m s (fun c => u32_ci_contains chars c) offset.

(** Algorithms.cpp:643-650 *)
Definition ci_find_last_of_set_m (s : str) (chars : cpset) (offset : N) : mout (subrange * N) :=
  find_last_where_m s (fun c => cps_ci_contains chars c) offset.

(** Algorithms.cpp:678-686 *)
Fixpoint ci_replace_front_loop_m (fuel : nat) (s from to : str) (m : Z) (result : str)
  : mout (str * str) :=
  match fuel with
  | O => MFuel
  | S fuel' =>
    if (0 <? m)%Z then
      let! mt := ci_find_first_m s from 0 in
      if negb (sub_bool mt) then MOk (result, s)
      else
        let! a := mlift (substr s 0 (sub_start mt)) in
        let! s' := mlift (substr_from s (sub_end mt)) in
        ci_replace_front_loop_m fuel' s' from to (m - 1)%Z (result ++ a ++ to)
    else MOk (result, s)
  end.

(** Algorithms.cpp:693-702 *)
Fixpoint ci_collect_last_m (fuel : nat) (tmp from : str) (m : Z) (matches : list subrange)
  : mout (list subrange) :=
  match fuel with
  | O => MFuel
  | S fuel' =>
    if (m <? 0)%Z then
      let! mt := ci_find_last_m tmp from npos in
      if negb (sub_bool mt) then MOk matches
      else
        let! tmp' := mlift (substr tmp 0 (sub_start mt)) in
        ci_collect_last_m fuel' tmp' from (m + 1)%Z (matches ++ [mt])
    else MOk matches
  end.

(** Algorithms.cpp:670-716 *)
Definition ci_replace_m (s from to : str) (max_replacements : Z) : mout str :=
  if (0 <=? max_replacements)%Z then
    let! p := ci_replace_front_loop_m (S (length s)) s from to max_replacements [] in
    let (result, s') := p in
    MOk (match s' with [] => result | _ => result ++ s' end)
  else
    let! matches := ci_collect_last_m (S (length s)) s from max_replacements [] in
    let! p := mlift (ci_replace_back_loop s to (rev matches) 0 []) in
    let (result, start) := p in
    if negb (start =? size s)
    then let! t := mlift (substr_from s start) in MOk (result ++ t)
    else MOk result.

(** Algorithms.cpp:718-725 *)
Definition ci_split_chars_m (s : str) (chars : u32str) (max_splits : N) (ignore_empty : bool)
  : mout (list str) :=
  split_where_m s (fun t => let! p := ci_find_first_of_m t chars 0 in MOk (fst p)) max_splits ignore_empty.

(** Algorithms.cpp:727-734 *)
Definition ci_split_sep_m (s sep : str) (max_splits : N) (ignore_empty : bool) : mout (list str) :=
  split_where_m s (fun t => ci_find_first_m t sep 0) max_splits ignore_empty.

(** Normalize.cpp:155-178 *)
Fixpoint to_decomposed_loop_m (inner_fuel fuel : nat) (s : str) (buf : list N) (from it to : nat)
    (result : str) : mout (str * nat * nat) :=
  match fuel with
  | O => MFuel
  | S fuel' =>
    let! r := safe_decode_next_m file s it in
    match r with
    | None => MOk (result, from, to)
    | Some (ch, it) =>
      let! p := mlift (decompose_char ch buf) in
      let '(ok, sz, buf) := p in
      let! p := mlift (decompose_until inner_fuel ch ok sz buf) in
      let (sz, buf) := p in
      if sz =? 1 then to_decomposed_loop_m inner_fuel fuel' s buf from it it result
      else
        let! result := mlift (append_range result s from to) in
        to_decomposed_loop_m inner_fuel fuel' s buf it it it
          (result ++ from_utf32 (firstn (N.to_nat sz) buf))
    end
  end.

(** Normalize.cpp:146-181; [inner_fuel] bounds the [while (!ok)] loop. *)
Definition to_decomposed_m (inner_fuel : nat) (s : str) : mout str :=
  let! p := to_decomposed_loop_m inner_fuel (S (length s)) s (repeat 0 3) 0 0 0 [] in
  let '(result, from, to) := p in
  mlift (append_range result s from to).

(** Normalize.cpp:128-136, the inner loop; result: [ch], [mark] and [it] after
    it, and the value of from = prev = to.  [mark] keeps its value when
    safe_decode_next returns false. *)
Fixpoint compose_inner_m (adjacent : bool) (fuel : nat) (s : str) (ch mark : N) (it base : nat)
  : mout (N * N * nat * nat) :=
  match fuel with
  | O => MFuel
  | S fuel' =>
    let! r := safe_decode_next_m file s it in
    match r with
    | None => MOk (ch, mark, it, base)
    | Some (mark, it) =>
      let! denorm := mlift (find_composed adjacent ch mark) in
      if denorm =? 0 then MOk (ch, mark, it, base)
      else compose_inner_m adjacent fuel' s denorm mark it it
    end
  end.

(** Normalize.cpp:114-141 *)
Fixpoint to_composed_loop_m (adjacent : bool) (fuel : nat) (s : str) (ch : N) (from it to prev : nat)
    (result : str) : mout (str * nat * nat) :=
  match fuel with
  | O => MFuel
  | S fuel' =>
    let! r := safe_decode_next_m file s it in
    match r with
    | None => MOk (result, from, prev)
    | Some (mark, it) =>
      let! denorm := mlift (find_composed adjacent ch mark) in
      if denorm =? 0 then
        to_composed_loop_m adjacent fuel' s mark from it prev it result
      else
        let! result := mlift (append_range result s from to) in
        let! p := compose_inner_m adjacent (S (length s)) s denorm mark it it in
        let '(ch, mark, it, base) := p in
        to_composed_loop_m adjacent fuel' s mark base it base base (result ++ fst (encode_utf8 ch))
    end
  end.

(** Normalize.cpp:103-144 *)
Definition to_composed_m (adjacent : bool) (s : str) : mout str :=
  let! r := safe_decode_next_m file s 0 in
  match r with
  | None => MOk []
  | Some (ch, it) =>
    let! p := to_composed_loop_m adjacent (S (length s)) s ch 0 it 0 it [] in
    let '(result, from, prev) := p in
    mlift (append_range result s from prev)
  end.
End Files.
