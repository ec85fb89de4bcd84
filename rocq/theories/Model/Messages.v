(** Model of the texts carried by the exceptions (include/Ystring/YstringException.hpp)
    for the functions whose message depends on their arguments.  The functions
    are those of Model/Search.v, Model/Chars.v, Model/Decode.v and
    Model/Unescape.v with the message added to the outcome. *)
From Coq Require Import String.
From Verif Require Import Base Model.Decode Model.Encode Model.Subrange Model.Search Model.Chars Model.Unescape Model.Print.

(** A string literal. *)
Definition lit (s : string) : str := list_byte_of_string s.

(** Outcomes with messages: [MWhat what] is a YstringException whose [what()]
    is [what], [MStd e] any other exception. *)
Inductive mout (A : Type) : Type :=
| MOk (a : A)
| MWhat (what : str)
| MStd (e : exn)
| MUB
| MFuel.
Arguments MOk {A} a.
Arguments MWhat {A} what.
Arguments MStd {A} e.
Arguments MUB {A}.
Arguments MFuel {A}.

Definition mbind {A B} (m : mout A) (k : A -> mout B) : mout B :=
  match m with
  | MOk a => k a
  | MWhat w => MWhat w
  | MStd e => MStd e
  | MUB => MUB
  | MFuel => MFuel
  end.
Notation "'let!' x := m 'in' k" := (mbind m (fun x => k))
  (at level 200, x pattern, m at level 100, k at level 200, right associativity).

(** For computations that throw no YstringException. *)
Definition mlift {A} (m : outcome A) : mout A :=
  match m with
  | Ok a => MOk a
  | Throw e => MStd e
  | UB => MUB
  | OutOfFuel => MFuel
  end.

(** The outcome without the message. *)
Definition erase {A} (m : mout A) : outcome A :=
  match m with
  | MOk a => Ok a
  | MWhat _ => Throw YstringException
  | MStd e => Throw e
  | MUB => UB
  | MFuel => OutOfFuel
  end.

(** The source files; [file f] is the value of [__FILE__] in [f], which depends on
    how the compiler is called. *)
Inductive source : Type := Unescape_cpp | Algorithms_cpp | AlgorithmUtilities_cpp | DecodeUtf8_hpp.

(** YstringException.hpp:28-35 [YSTRING_THROW(msg)]: [file ":" #line ": " msg].
    For a call of the macro that spans several lines compilers differ in the
    value of [__LINE__]; here it is the first line. *)
Definition ystring_throw (file : source -> str) (f : source) (line : N) (msg : str) : str :=
  file f ++ lit ":" ++ print_decimal line ++ lit ": " ++ msg.

Section Files.
Context (file : source -> str).

(** Unescape.cpp:57-69 *)
Definition parse_escaped_hex_char_m (s : str) : mout N :=
  if Nat.ltb (length s) 2 then MUB
  else
    let (n, v) := from_chars 16 (skipn 2 s) in
    match n, v with
    | O, _ => MWhat (ystring_throw file Unescape_cpp 65 (lit "Cannot parse escaped char: " ++ s))
    | _, Some value => MOk value
    | _, None => MUB
    end.

(** Unescape.cpp:71-83 *)
Definition parse_escaped_oct_char_m (s : str) : mout N :=
  if Nat.ltb (length s) 1 then MUB
  else
    let (n, v) := from_chars 8 (skipn 1 s) in
    match n, v with
    | O, _ => MWhat (ystring_throw file Unescape_cpp 79 (lit "Cannot parse escaped char: " ++ s))
    | _, Some value => MOk value
    | _, None => MUB
    end.

(** Unescape.cpp:126-165 *)
Definition classify_escape_m (s : str) (start : N) (c : byte) : mout subrange :=
  let finish (e min_length : N) :=
    if sub64 e start <? min_length
    then MWhat (ystring_throw file Unescape_cpp 161 (lit "Invalid escape sequence at offset " ++ print_decimal start))
    else MOk (Sub start (sub64 e start)) in
  if byte_eqb c x58 || byte_eqb c x78 then
    let! e := mlift (find_end_of_hex_sequence s (add64 start 2) (size s)) in finish e 4
  else if byte_eqb c x75 then
    let! e := mlift (find_end_of_hex_sequence s (add64 start 2) (add64 start 6)) in finish e 6
  else if byte_eqb c x55 then
    let! e := mlift (find_end_of_hex_sequence s (add64 start 2) (add64 start 10)) in finish e 10
  else if is_oct_digit_char c then
    let! e := mlift (find_end_of_oct_sequence s (add64 start 1) (add64 start 4)) in finish e 2
  else if N.land (u8 c) 0x80 =? 0 then MOk (Sub start 2)
  else MWhat (ystring_throw file Unescape_cpp 155 (lit "Invalid escape sequence at offset " ++ print_decimal start)).

(** Unescape.cpp:114-166 *)
Definition find_first_escaped_char_m (s : str) (offset : N) : mout subrange :=
  let! b := mlift (begin_plus s offset) in
  let it := std_find_if (fun c => byte_eqb c x5c) s b in
  if Nat.eqb it (length s) then MOk (sub_at (size s))
  else
    let start := N.of_nat it in
    let it := S it in
    if Nat.eqb it (length s)
    then MWhat (ystring_throw file Unescape_cpp 122 (lit "Incomplete escape sequence at offset " ++ print_decimal start))
    else
      let! c := mlift (deref s it) in
      classify_escape_m s start c.

(** Unescape.cpp:168-171 *)
Definition has_escaped_chars_m (s : str) : mout bool :=
  let! r := find_first_escaped_char_m s 0 in MOk (sub_bool r).

(** Unescape.cpp:90-111 *)
Definition parse_utf16_m (s : str) (sub : subrange) : mout (N * subrange) :=
  let! t := mlift (substr s (sub_offset sub) (sub_length sub)) in
  let! ch := parse_escaped_hex_char_m t in
  if (ch <? 0xD800) || (0xDBFF <? ch) then MOk (ch, sub)
  else
    let! str2 := mlift (substr s (sub_end sub) 6) in
    let! sub2 := find_first_escaped_char_m str2 0 in
    if negb (sub_bool sub2) || negb (sub_offset sub2 =? 0) || negb (sub_length sub2 =? 6)
    then MOk (ch, sub)
    else
      let! c := mlift (deref s (N.to_nat (add64 (sub_end sub) 1))) in
      if negb (byte_eqb c x75) then MOk (ch, sub)
      else
        let! ch2 := parse_escaped_hex_char_m str2 in
        if (ch2 <? 0xDC00) || (0xDFFF <? ch2) then MOk (ch, sub)
        else MOk (combine_surrogate_pair ch ch2, Sub (sub_offset sub) 12).

(** Unescape.cpp:188-226 *)
Definition unescape_one_m (sv : str) (sub : subrange) : mout (N * subrange) :=
  let! c := mlift (deref sv (N.to_nat (add64 (sub_start sub) 1))) in
  if byte_eqb c x78 || byte_eqb c x58 || byte_eqb c x55 then
    let! t := mlift (substr sv (sub_start sub) (sub_length sub)) in
    let! ch := parse_escaped_hex_char_m t in MOk (ch, sub)
  else if byte_eqb c x75 then parse_utf16_m sv sub
  else if byte_eqb c x61 then MOk (0x07, sub)
  else if byte_eqb c x62 then MOk (0x08, sub)
  else if byte_eqb c x66 then MOk (0x0C, sub)
  else if byte_eqb c x6e then MOk (0x0A, sub)
  else if byte_eqb c x72 then MOk (0x0D, sub)
  else if byte_eqb c x74 then MOk (0x09, sub)
  else if byte_eqb c x76 then MOk (0x0B, sub)
  else if is_oct_digit_char c then
    let! t := mlift (substr sv (sub_start sub) (sub_length sub)) in
    let! ch := parse_escaped_oct_char_m t in MOk (ch, sub)
  else MOk (u8 c, sub).

(** Unescape.cpp:178-229 *)
Fixpoint unescape_loop_m (fuel : nat) (buf : str) (from to : N) : mout (str * N) :=
  match fuel with
  | O => MFuel
  | S fuel' =>
    let! sub := find_first_escaped_char_m buf from in
    let! buf := mlift (if negb (from =? to) then copy_within buf from (sub_start sub) to else Ok buf) in
    let to := add64 to (sub64 (sub_start sub) from) in
    if negb (sub_bool sub) then MOk (buf, to)
    else
      let! p := unescape_one_m buf sub in
      let (ch, sub) := p in
      let (bytes, n) := encode_utf8 ch in
      let! buf := mlift (write_at buf to bytes) in
      unescape_loop_m fuel' buf (sub_end sub) (add64 to n)
  end.

(** Unescape.cpp:173-231 *)
Definition unescape_buf_m (buf : str) : mout (str * N) := unescape_loop_m (S (length buf)) buf 0 0.

(** Unescape.cpp:233-237 *)
Definition unescape_m (s : str) : mout str :=
  let! p := unescape_buf_m s in
  let (buf, n) := p in
  MOk (firstn (N.to_nat n) buf ++ repeat x00 (N.to_nat n - length buf)).

(** Unescape.cpp:239-259 *)
Definition extract_hex_char_m (s : str) (min_length max_length : nat) : mout N * str :=
  let max_length := Nat.min max_length (length s) in
  let (n, v) := from_chars 16 (firstn max_length s) in
  if Nat.ltb n min_length
  then (MWhat (ystring_throw file Unescape_cpp 252 (lit "Too few hex digits in escape sequence."
          ++ lit " Expected at least " ++ print_decimal (N.of_nat min_length) ++ lit ", got " ++ print_decimal (N.of_nat n))), s)
  else (match v with Some value => MOk value | None => MUB end, skipn n s).

(** Unescape.cpp:261-279 *)
Definition extract_utf16_char_m (s : str) : mout N * str :=
  let (r, s) := extract_hex_char_m s 4 4 in
  match r with
  | MOk ch =>
    if (ch <? 0xD800) || (0xDBFF <? ch) then (MOk ch, s)
    else
      let str2 := firstn 6 s in
      if Nat.ltb (length str2) 6 then (MOk ch, s)
      else if negb (byte_eqb (nth 0 str2 x00) x5c) || negb (byte_eqb (nth 1 str2 x00) x75)
      then (MOk ch, s)
      else
        let (r2, _) := extract_hex_char_m (skipn 2 str2) 4 4 in
        match r2 with
        | MOk ch2 =>
          if (ch2 <? 0xDC00) || (0xDFFF <? ch2) then (MOk ch, s)
          else (MOk (combine_surrogate_pair ch ch2), skipn 6 s)
        | e => (e, s)
        end
  | e => (e, s)
  end.

(** Unescape.cpp:281-296 *)
Definition extract_oct_char_m (s : str) : mout N * str :=
  let max_length := Nat.min (length s) 3 in
  let (n, v) := from_chars 8 (firstn max_length s) in
  if Nat.eqb n 0 then (MWhat (ystring_throw file Unescape_cpp 291 (lit "Invalid octal escape sequence.")), s)
  else (match v with Some value => MOk value | None => MUB end, skipn n s).

(** DecodeUtf8.hpp:182-191 *)
Definition safe_decode_next_m (s : str) (it : nat) : mout (option (N * nat)) :=
  if Nat.eqb it (length s) then MOk None
  else
    let! p := mlift (decode_next s it) in
    let (ch, it') := p in
    if ch =? INVALID_CHAR then MWhat (ystring_throw file DecodeUtf8_hpp 189 (lit "Invalid UTF-8 string."))
    else MOk (Some (ch, it')).

(** DecodeUtf8.hpp:193-202 *)
Definition safe_decode_prev_m (s : str) (it : nat) : mout (option (N * nat)) :=
  if Nat.eqb it 0 then MOk None
  else
    let! p := mlift (decode_prev s it) in
    let (ch, it') := p in
    if ch =? INVALID_CHAR then MWhat (ystring_throw file DecodeUtf8_hpp 200 (lit "Invalid UTF-8 string."))
    else MOk (Some (ch, it')).

(** DecodeUtf8.hpp:213-222 *)
Definition pop_utf8_codepoint_m (s : str) : mout (option N * str) :=
  let! r := safe_decode_next_m s 0 in
  match r with
  | None => MOk (None, s)
  | Some (ch, it) => MOk (Some ch, skipn it s)
  end.

(** DecodeUtf8.hpp:233-242 *)
Definition pop_last_utf8_codepoint_m (s : str) : mout (option N * str) :=
  let! r := safe_decode_prev_m s (length s) in
  match r with
  | None => MOk (None, s)
  | Some (ch, it) => MOk (Some ch, firstn it s)
  end.

(** [pop_utf8_codepoint] with the view kept when it throws *)
Definition pop_view_m (s : str) : mout (option N) * str :=
  match pop_utf8_codepoint_m s with
  | MOk (c, s') => (MOk c, s')
  | MWhat w => (MWhat w, s)
  | MStd e => (MStd e, s)
  | MUB => (MUB, s)
  | MFuel => (MFuel, s)
  end.

Definition some_char_m (p : mout N * str) : mout (option N) * str :=
  (let! a := fst p in MOk (Some a), snd p).

(** Unescape.cpp:329-357 *)
Definition unescape_switch_m (backup : str) (type : byte) (s : str) : mout (option N) * str :=
  if byte_eqb type x61 then (MOk (Some 0x07), s)
  else if byte_eqb type x62 then (MOk (Some 0x08), s)
  else if byte_eqb type x66 then (MOk (Some 0x0C), s)
  else if byte_eqb type x6e then (MOk (Some 0x0A), s)
  else if byte_eqb type x72 then (MOk (Some 0x0D), s)
  else if byte_eqb type x74 then (MOk (Some 0x09), s)
  else if byte_eqb type x76 then (MOk (Some 0x0B), s)
  else if byte_eqb type x78 || byte_eqb type x58 then some_char_m (extract_hex_char_m s 1 8)
  else if byte_eqb type x55 then some_char_m (extract_hex_char_m s 8 8)
  else if byte_eqb type x75 then some_char_m (extract_utf16_char_m s)
  else
    let s := skipn 1 backup in
    if is_oct_digit_char type then some_char_m (extract_oct_char_m s) else pop_view_m s.

(** Unescape.cpp:298-364; the [catch] block restores the view and rethrows the
    same exception. *)
Definition unescape_next_m (s : str) : (mout (option N) * str) * option bool :=
  let s := skip_escaped_newlines s in
  match s with
  | [] => ((MOk None, s), Some false)
  | a :: s1 =>
    if negb (byte_eqb a x5c) then (pop_view_m s, Some false)
    else
      match s1 with
      | [] => ((MWhat (ystring_throw file Unescape_cpp 319 (lit "Incomplete escape sequence.")), s), None)
      | type :: s2 =>
        let backup := s in
        let (r, s') := unescape_switch_m backup type s2 in
        match r with
        | MWhat w => ((MWhat w, backup), Some true)
        | _ => ((r, s'), Some true)
        end
      end
  end.

(** Algorithms.cpp:31-36 [append(std::string&, char32_t)] *)
Definition append_to_m (s : str) (chr : N) : mout unit * str :=
  let (bytes, n) := encode_utf8 chr in
  let s' := s ++ bytes in
  if n =? 0 then (MWhat (ystring_throw file Algorithms_cpp 35 (lit "Invalid code point: " ++ print_decimal chr)), s')
  else (MOk tt, s').

(** Algorithms.cpp:38-43 *)
Definition append_m (s : str) (chr : N) : mout str :=
  let (r, s') := append_to_m s chr in
  let! _ := r in MOk s'.

(** AlgorithmUtilities.cpp:110-121 *)
Definition insert_at_offset_str_m (s : str) (offset : N) (codepoints : str) : mout str :=
  match codepoints with
  | [] => MOk s
  | _ =>
    if offset =? npos
    then MWhat (ystring_throw file AlgorithmUtilities_cpp 116 (lit "string position is out of bounds"))
    else
      let! a := mlift (substr s 0 offset) in
      let! b := mlift (substr_from s offset) in
      MOk (a ++ codepoints ++ b)
  end.

(** AlgorithmUtilities.cpp:123-132 *)
Definition insert_at_offset_cp_m (s : str) (offset : N) (codepoint : N) : mout str :=
  if offset =? npos
  then MWhat (ystring_throw file AlgorithmUtilities_cpp 127 (lit "string position is out of bounds"))
  else
    let! a := mlift (substr s 0 offset) in
    let! r := append_m a codepoint in
    let! b := mlift (substr_from s offset) in
    MOk (r ++ b).

(** Algorithms.cpp:329-333 *)
Definition insert_codepoint_m (s : str) (pos : Z) (codepoint : N) : mout str :=
  let! o := mlift (get_codepoint_pos s pos) in insert_at_offset_cp_m s o codepoint.

(** Algorithms.cpp:335-340 *)
Definition insert_codepoints_m (s : str) (pos : Z) (codepoints : str) : mout str :=
  let! o := mlift (get_codepoint_pos s pos) in insert_at_offset_str_m s o codepoints.

(** Algorithms.cpp:407-422 *)
Definition replace_codepoint_m (s : str) (from to : N) (max_replacements : Z) : mout str :=
  let (f, f_size) := encode_utf8_buf from 4 in
  let (t, t_size) := encode_utf8_buf to 4 in
  if f_size =? 0
  then MWhat (ystring_throw file Algorithms_cpp 415 (lit "Invalid from-code point: " ++ print_decimal from))
  else if t_size =? 0
  then MWhat (ystring_throw file Algorithms_cpp 418 (lit "Invalid to-code point: " ++ print_decimal to))
  else mlift (replace s f t max_replacements).
End Files.
