(** Model of src/Ystring/Unescape.cpp. *)
From Verif Require Import Base Model.Decode Model.Encode Model.Subrange.

(** Unescape.cpp:21-25.  char may be signed: ['0' <= c] is false for bytes with
    the high bit set, and so is [u8 c <= 0x39]. *)
Definition is_hex_digit_char (c : byte) : bool :=
  ((0x30 <=? u8 c) && (u8 c <=? 0x39))
  || ((0x41 <=? N.land (u8 c) 0xDF) && (N.land (u8 c) 0xDF <=? 0x46)).

(** Unescape.cpp:53 and 144, ['0' <= c && c <= '7'] *)
Definition is_oct_digit_char (c : byte) : bool := (0x30 <=? u8 c) && (u8 c <=? 0x37).

(** Unescape.cpp:31-36; [k] is the number of iterations left before
    [min(str.size(), end)]. *)
Fixpoint uf_find_loop (s : str) (pred : byte -> bool) (k i : nat) (e : N) : outcome N :=
  match k with
  | O => Ok e
  | S k' =>
    let* c := deref s i in
    if pred c then Ok (N.of_nat i) else uf_find_loop s pred k' (S i) e
  end.

(** Unescape.cpp:27-37 [find_first_where(str, start, end, pred)] *)
Definition uf_find (s : str) (start e : N) (pred : byte -> bool) : outcome N :=
  uf_find_loop s pred (N.to_nat (N.min (size s) e - start)) (N.to_nat start) e.

(** Unescape.cpp:39-46 *)
Definition find_end_of_hex_sequence (s : str) (start e : N) : outcome N :=
  uf_find s start e (fun c => negb (is_hex_digit_char c)).

(** Unescape.cpp:48-55 *)
Definition find_end_of_oct_sequence (s : str) (start e : N) : outcome N :=
  uf_find s start e (fun c => negb (is_oct_digit_char c)).

(** Value of a digit in base 16 (std::from_chars accepts both cases). *)
Definition digit_value (c : byte) : option N :=
  if (0x30 <=? u8 c) && (u8 c <=? 0x39) then Some (u8 c - 0x30)
  else if (0x41 <=? u8 c) && (u8 c <=? 0x46) then Some (u8 c - 0x41 + 10)
  else if (0x61 <=? u8 c) && (u8 c <=? 0x66) then Some (u8 c - 0x61 + 10)
  else None.

(** The longest prefix of digits in [base], as a number, and its length. *)
Fixpoint scan_digits (base : N) (s : str) (value : N) (n : nat) : N * nat :=
  match s with
  | [] => (value, n)
  | c :: s' =>
    match digit_value c with
    | Some d => if d <? base then scan_digits base s' (value * base + d) (S n) else (value, n)
    | None => (value, n)
    end
  end.

(** [std::from_chars(first, last, uint32_t& value, base)]: the number of
    characters consumed, and the value stored; [None] when [value] is left
    unmodified (no digits, or result out of range). *)
Definition from_chars (base : N) (s : str) : nat * option N :=
  let (value, n) := scan_digits base s 0 0 in
  match n with
  | O => (0%nat, None)
  | S _ => if value <? W32 then (n, Some value) else (n, None)
  end.

(** Unescape.cpp:57-69.  [str.data() + 2] needs two characters.  Returning an
    unmodified [value] reads an indeterminate value. *)
Definition parse_escaped_hex_char (s : str) : outcome N :=
  if Nat.ltb (length s) 2 then UB
  else
    let (n, v) := from_chars 16 (skipn 2 s) in
    match n, v with
    | O, _ => Throw YstringException
    | _, Some value => Ok value
    | _, None => UB
    end.

(** Unescape.cpp:71-83 *)
Definition parse_escaped_oct_char (s : str) : outcome N :=
  if Nat.ltb (length s) 1 then UB
  else
    let (n, v) := from_chars 8 (skipn 1 s) in
    match n, v with
    | O, _ => Throw YstringException
    | _, Some value => Ok value
    | _, None => UB
    end.

(** Unescape.cpp:85-88 *)
Definition combine_surrogate_pair (ch1 ch2 : N) : N :=
  add32 (N.lor (shl32 (N.land ch1 0x3FF) 10) (N.land ch2 0x3FF)) 0x10000.

(** Unescape.cpp:126-165, the classification of an escape starting at [start]
    whose second character is [c]. *)
Definition classify_escape (s : str) (start : N) (c : byte) : outcome subrange :=
  let finish (e min_length : N) :=
    if sub64 e start <? min_length then Throw YstringException
    else Ok (Sub start (sub64 e start)) in
  if byte_eqb c x58 || byte_eqb c x78 then                (* X x *)
    let* e := find_end_of_hex_sequence s (add64 start 2) (size s) in finish e 4
  else if byte_eqb c x75 then                             (* u *)
    let* e := find_end_of_hex_sequence s (add64 start 2) (add64 start 6) in finish e 6
  else if byte_eqb c x55 then                             (* U *)
    let* e := find_end_of_hex_sequence s (add64 start 2) (add64 start 10) in finish e 10
  else if is_oct_digit_char c then
    let* e := find_end_of_oct_sequence s (add64 start 1) (add64 start 4) in finish e 2
  else if N.land (u8 c) 0x80 =? 0 then Ok (Sub start 2)
  else Throw YstringException.

(** Unescape.cpp:114-166 *)
Definition find_first_escaped_char (s : str) (offset : N) : outcome subrange :=
  let* b := begin_plus s offset in
  let it := std_find_if (fun c => byte_eqb c x5c) s b in
  if Nat.eqb it (length s) then Ok (sub_at (size s))
  else
    let start := N.of_nat it in
    let it := S it in
    if Nat.eqb it (length s) then Throw YstringException
    else
      let* c := deref s it in
      classify_escape s start c.

(** Unescape.cpp:168-171 *)
Definition has_escaped_chars (s : str) : outcome bool :=
  let* r := find_first_escaped_char s 0 in Ok (sub_bool r).

(** Unescape.cpp:90-111 *)
Definition parse_utf16 (s : str) (sub : subrange) : outcome (N * subrange) :=
  let* t := substr s (sub_offset sub) (sub_length sub) in
  let* ch := parse_escaped_hex_char t in
  if (ch <? 0xD800) || (0xDBFF <? ch) then Ok (ch, sub)
  else
    let* str2 := substr s (sub_end sub) 6 in
    let* sub2 := find_first_escaped_char str2 0 in
    if negb (sub_bool sub2) || negb (sub_offset sub2 =? 0) || negb (sub_length sub2 =? 6)
    then Ok (ch, sub)
    else
      let* c := deref s (N.to_nat (add64 (sub_end sub) 1)) in
      if negb (byte_eqb c x75) then Ok (ch, sub)
      else
        let* ch2 := parse_escaped_hex_char str2 in
        if (ch2 <? 0xDC00) || (0xDFFF <? ch2) then Ok (ch, sub)
        else Ok (combine_surrogate_pair ch ch2, Sub (sub_offset sub) 12).

(** Unescape.cpp:188-226, the [switch] *)
Definition unescape_one (sv : str) (sub : subrange) : outcome (N * subrange) :=
  let* c := deref sv (N.to_nat (add64 (sub_start sub) 1)) in
  if byte_eqb c x78 || byte_eqb c x58 || byte_eqb c x55 then
    let* t := substr sv (sub_start sub) (sub_length sub) in
    let* ch := parse_escaped_hex_char t in Ok (ch, sub)
  else if byte_eqb c x75 then parse_utf16 sv sub
  else if byte_eqb c x61 then Ok (0x07, sub)
  else if byte_eqb c x62 then Ok (0x08, sub)
  else if byte_eqb c x66 then Ok (0x0C, sub)
  else if byte_eqb c x6e then Ok (0x0A, sub)
  else if byte_eqb c x72 then Ok (0x0D, sub)
  else if byte_eqb c x74 then Ok (0x09, sub)
  else if byte_eqb c x76 then Ok (0x0B, sub)
  else if is_oct_digit_char c then
    let* t := substr sv (sub_start sub) (sub_length sub) in
    let* ch := parse_escaped_oct_char t in Ok (ch, sub)
  else Ok (u8 c, sub).

(** Writing [bytes] into the buffer from position [pos] on; writing outside the
    buffer is undefined. *)
Definition write_at (buf : str) (pos : N) (bytes : str) : outcome str :=
  if pos + size bytes <=? size buf
  then Ok (firstn (N.to_nat pos) buf ++ bytes ++ skipn (N.to_nat (pos + size bytes)) buf)
  else UB.

(** [std::copy(str + from, str + last, str + to)] inside the buffer; both ranges
    must lie in the buffer, [from <= last], and the destination may not start
    inside the source range after its beginning. *)
Definition copy_within (buf : str) (from last to : N) : outcome str :=
  if (from <=? last) && (last <=? size buf) && ((to <? from) || (last <=? to))
  then write_at buf to (slice buf (N.to_nat from) (N.to_nat last))
  else UB.

(** Unescape.cpp:178-229.  The string_view [sv] and the pointer [str] refer to
    the same buffer, so every search sees the bytes already rewritten. *)
Fixpoint unescape_loop (fuel : nat) (buf : str) (from to : N) : outcome (str * N) :=
  match fuel with
  | O => OutOfFuel
  | S fuel' =>
    let* sub := find_first_escaped_char buf from in
    let* buf := if negb (from =? to) then copy_within buf from (sub_start sub) to else Ok buf in
    let to := add64 to (sub64 (sub_start sub) from) in
    if negb (sub_bool sub) then Ok (buf, to)
    else
      let* p := unescape_one buf sub in
      let (ch, sub) := p in
      let (bytes, n) := encode_utf8 ch in
      let* buf := write_at buf to bytes in
      unescape_loop fuel' buf (sub_end sub) (add64 to n)
  end.

(** Unescape.cpp:173-231 [unescape(char*, size_t)]: the buffer and the length
    returned. *)
Definition unescape_buf (buf : str) : outcome (str * N) :=
  unescape_loop (S (length buf)) buf 0 0.

(** Unescape.cpp:233-237 [unescape(std::string)]; [resize] to a larger size
    would append zero bytes. *)
Definition unescape (s : str) : outcome str :=
  let* p := unescape_buf s in
  let (buf, n) := p in
  Ok (firstn (N.to_nat n) buf ++ repeat x00 (N.to_nat n - length buf)).

(** ** Incremental decoding.  These functions change a string_view: they return
    the outcome together with the view's value afterwards. *)

(** Unescape.cpp:239-259 *)
Definition extract_hex_char (s : str) (min_length max_length : nat) : outcome N * str :=
  let max_length := Nat.min max_length (length s) in
  let (n, v) := from_chars 16 (firstn max_length s) in
  if Nat.ltb n min_length then (Throw YstringException, s)
  else (match v with Some value => Ok value | None => UB end, skipn n s).

(** Unescape.cpp:261-279 *)
Definition extract_utf16_char (s : str) : outcome N * str :=
  let (r, s) := extract_hex_char s 4 4 in
  match r with
  | Ok ch =>
    if (ch <? 0xD800) || (0xDBFF <? ch) then (Ok ch, s)
    else
      let str2 := firstn 6 s in
      if Nat.ltb (length str2) 6 then (Ok ch, s)
      else if negb (byte_eqb (nth 0 str2 x00) x5c) || negb (byte_eqb (nth 1 str2 x00) x75)
      then (Ok ch, s)
      else
        let (r2, _) := extract_hex_char (skipn 2 str2) 4 4 in
        match r2 with
        | Ok ch2 =>
          if (ch2 <? 0xDC00) || (0xDFFF <? ch2) then (Ok ch, s)
          else (Ok (combine_surrogate_pair ch ch2), skipn 6 s)
        | e => (e, s)
        end
  | e => (e, s)
  end.

(** Unescape.cpp:281-296 *)
Definition extract_oct_char (s : str) : outcome N * str :=
  let max_length := Nat.min (length s) 3 in
  let (n, v) := from_chars 8 (firstn max_length s) in
  if Nat.eqb n 0 then (Throw YstringException, s)
  else (match v with Some value => Ok value | None => UB end, skipn n s).

(** Unescape.cpp:301-302 *)
Fixpoint skip_escaped_newlines (s : str) : str :=
  match s with
  | a :: b :: s' => if byte_eqb a x5c && byte_eqb b x0a then skip_escaped_newlines s' else s
  | _ => s
  end.

(** [pop_utf8_codepoint] with the view kept when it throws (DecodeUtf8.hpp:213-222). *)
Definition pop_view (s : str) : outcome (option N) * str :=
  match pop_utf8_codepoint s with
  | Ok (c, s') => (Ok c, s')
  | Throw e => (Throw e, s)
  | UB => (UB, s)
  | OutOfFuel => (OutOfFuel, s)
  end.

Definition some_char (p : outcome N * str) : outcome (option N) * str :=
  (omap Some (fst p), snd p).

(** Unescape.cpp:329-357, the [switch] inside [try]; [backup] starts with the
    backslash and [type] follows it. *)
Definition unescape_switch (backup : str) (type : byte) (s : str) : outcome (option N) * str :=
  if byte_eqb type x61 then (Ok (Some 0x07), s)
  else if byte_eqb type x62 then (Ok (Some 0x08), s)
  else if byte_eqb type x66 then (Ok (Some 0x0C), s)
  else if byte_eqb type x6e then (Ok (Some 0x0A), s)
  else if byte_eqb type x72 then (Ok (Some 0x0D), s)
  else if byte_eqb type x74 then (Ok (Some 0x09), s)
  else if byte_eqb type x76 then (Ok (Some 0x0B), s)
  else if byte_eqb type x78 || byte_eqb type x58 then some_char (extract_hex_char s 1 8)
  else if byte_eqb type x55 then some_char (extract_hex_char s 8 8)
  else if byte_eqb type x75 then some_char (extract_utf16_char s)
  else
    let s := skipn 1 backup in
    if is_oct_digit_char type then some_char (extract_oct_char s) else pop_view s.

(** Unescape.cpp:298-364 [unescape_next(str, did_unescape)]: outcome, the view
    afterwards, and what is stored through [did_unescape] ([None]: nothing). *)
Definition unescape_next (s : str) : (outcome (option N) * str) * option bool :=
  let s := skip_escaped_newlines s in
  match s with
  | [] => ((Ok None, s), Some false)
  | a :: s1 =>
    if negb (byte_eqb a x5c) then (pop_view s, Some false)
    else
      match s1 with
      | [] => ((Throw YstringException, s), None)
      | type :: s2 =>
        let backup := s in
        let (r, s') := unescape_switch backup type s2 in
        match r with
        | Throw YstringException => ((Throw YstringException, backup), Some true)
        | _ => ((r, s'), Some true)
        end
      end
  end.
