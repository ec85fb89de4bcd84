(** Model of include/Ystring/DecodeUtf8.hpp and include/Ystring/CodepointConstants.hpp. *)
From Verif Require Import Base.

(** CodepointConstants.hpp:12-26 *)
Definition NEXT_LINE : N := 0x0085.
Definition LINE_SEPARATOR : N := 0x2028.
Definition PARAGRAPH_SEPARATOR : N := 0x2029.
Definition REPLACEMENT_CHARACTER : N := 0xFFFD.
Definition UNICODE_MAX : N := 0x10FFFF.
Definition INVALID_CHAR : N := 0xFFFFFFFF.

(** The lead-byte dispatch of DecodeUtf8.hpp:37-55: initial bits and number of
    continuation bytes, or None for the final [else]. *)
Definition lead_bits (b : byte) : option (N * nat) :=
  if N.land (u8 b) 0xE0 =? 0xC0 then Some (N.land (u8 b) 0x1F, 1%nat)
  else if N.land (u8 b) 0xF0 =? 0xE0 then Some (N.land (u8 b) 0x0F, 2%nat)
  else if N.land (u8 b) 0xF8 =? 0xF0 then Some (N.land (u8 b) 0x07, 3%nat)
  else None.

(** DecodeUtf8.hpp:63-77, the [for (int i = 0; i < n; ++i)] loop.  [k] is
    [n - i].  On a byte that is not a continuation byte the iterator is stepped
    back [i + 1] times. *)
Fixpoint decode_next_loop (s : str) (k i : nat) (result : N) (it : nat)
  : outcome (N * nat) :=
  match k with
  | O => Ok (result, it)
  | S k' =>
    let result := shl32 result 6 in
    let* c := deref s it in
    if N.land (u8 c) 0xC0 =? 0x80
    then decode_next_loop s k' (S i) (N.lor result (N.land (u8 c) 0x3F)) (S it)
    else Ok (INVALID_CHAR, (it - (i + 1))%nat)
  end.

(** DecodeUtf8.hpp:25-80 [decode_next(it, end)].  [s] is the contents of
    [[begin, end)] for any [begin] at or before [it]; [it] is the distance from
    that begin.  Returns the code point and the new value of [it]. *)
Definition decode_next (s : str) (it : nat) : outcome (N * nat) :=
  if Nat.eqb it (length s) then Ok (INVALID_CHAR, it)
  else
    let* b := deref s it in
    if N.land (u8 b) 0x80 =? 0 then Ok (u8 b, S it)
    else
      match lead_bits b with
      | None => Ok (INVALID_CHAR, it)
      | Some (result, n) =>
        let it := S it in
        if Nat.ltb (length s - it) n
        then Ok (INVALID_CHAR, (it - 1)%nat)
        else decode_next_loop s n 0 result it
      end.

(** DecodeUtf8.hpp:93-106, the [while] loop of [decode_prev].  [it] is the
    current position, [n] the number of continuation bytes consumed.  Result:
    [inl it'] when begin was reached inside the loop (the iterator is stepped
    forward n+1 times), [inr (result, n, it)] on normal exit.
    [(uint8_t & 0x3Fu) << (n * 6u)] is undefined when n * 6 >= 32. *)
Fixpoint decode_prev_loop (s : str) (it : nat) (result : N) (n : N)
  : outcome (nat + (N * N * nat)) :=
  let* b := deref s it in
  if N.land (u8 b) 0xC0 =? 0x80
  then match it with
       | O => Ok (inl (it + (N.to_nat n + 1))%nat)
       | S it' =>
         if 32 <=? n * 6 then UB
         else decode_prev_loop s it' (N.lor result (shl32 (N.land (u8 b) 0x3F) (n * 6))) (n + 1)
       end
  else Ok (inr (result, n, it)).

(** DecodeUtf8.hpp:82-119 [decode_prev(begin, it)].  [s] is the contents of
    [[begin, e)] for any [e] at or after [it]. *)
Definition decode_prev (s : str) (it : nat) : outcome (N * nat) :=
  match it with
  | O => Ok (INVALID_CHAR, it)
  | S it =>
    let* b := deref s it in
    if N.land (u8 b) 0x80 =? 0 then Ok (u8 b, it)
    else
      let* r := decode_prev_loop s it 0 0 in
      match r with
      | inl it' => Ok (INVALID_CHAR, it')
      | inr (result, n, it) =>
        let* c := deref s it in
        if (N.land (u8 c) 0xE0 =? 0xC0) && (n =? 1)
        then Ok (N.lor result (shl32 (N.land (u8 c) 0x1F) 6), it)
        else if (N.land (u8 c) 0xF0 =? 0xE0) && (n =? 2)
        then Ok (N.lor result (shl32 (N.land (u8 c) 0x0F) 12), it)
        else if (N.land (u8 c) 0xF8 =? 0xF0) && (n =? 3)
        then Ok (N.lor result (shl32 (N.land (u8 c) 0x07) 18), it)
        else Ok (INVALID_CHAR, (it + (N.to_nat n + 1))%nat)
      end
  end.

(** DecodeUtf8.hpp:142-143, [while (it != end && cont( *it ) && n-- > 0) ++it].
    [k] is the number of bytes left before [end]; [n] is a uint32_t. *)
Fixpoint skip_next_loop (s : str) (k : nat) (n : N) (it : nat) : outcome nat :=
  match k with
  | O => Ok it                                     (* it == end *)
  | S k' =>
    let* b := deref s it in
    if N.land (u8 b) 0xC0 =? 0x80
    then if n =? 0 then Ok it else skip_next_loop s k' (n - 1) (S it)
    else Ok it
  end.

(** DecodeUtf8.hpp:121-146 [skip_next(it, end)]; None is [return false]. *)
Definition skip_next (s : str) (it : nat) : outcome (option nat) :=
  if Nat.eqb it (length s) then Ok None
  else
    let* b := deref s it in
    let it := S it in
    let c := u8 b in
    if N.land c 0x80 =? 0 then Ok (Some it)
    else
      let n := if N.land c 0xE0 =? 0xC0 then 1
               else if N.land c 0xF0 =? 0xE0 then 2
               else if N.land c 0xF8 =? 0xF0 then 3
               else UINT32_MAX in
      let* it := skip_next_loop s (length s - it) n it in
      Ok (Some it).

(** DecodeUtf8.hpp:155-160, [while (cont( *(--it) ))].  [it] is the position
    before the decrement; [n] is a uint32_t and wraps.  Result: [inl it] when
    begin is reached inside the loop ([return true]), [inr (n, it)] on exit. *)
Fixpoint skip_prev_loop (s : str) (it : nat) (n : N) : outcome (nat + (N * nat)) :=
  match it with
  | O => UB                                        (* --it before begin *)
  | S it' =>
    let* b := deref s it' in
    if N.land (u8 b) 0xC0 =? 0x80
    then match it' with
         | O => Ok (inl it')
         | S _ => skip_prev_loop s it' ((n + 1) mod W32)
         end
    else Ok (inr (n, it'))
  end.

(** DecodeUtf8.hpp:148-180 [skip_prev(begin, it)]; None is [return false]. *)
Definition skip_prev (s : str) (it : nat) : outcome (option nat) :=
  match it with
  | O => Ok None
  | S _ =>
    let* r := skip_prev_loop s it 0 in
    match r with
    | inl it' => Ok (Some it')
    | inr (n, it) =>
      let* b := deref s it in
      let c := u8 b in
      let m := if N.land c 0x80 =? 0 then 1
               else if N.land c 0xE0 =? 0xC0 then 2
               else if N.land c 0xF0 =? 0xE0 then 3
               else if N.land c 0xF8 =? 0xF0 then 4
               else UINT32_MAX in
      if add32 n 1 <=? m then Ok (Some it)
      else Ok (Some (it + N.to_nat m)%nat)
    end
  end.

(** DecodeUtf8.hpp:182-191 [safe_decode_next(it, end, ch)].  None is
    [return false]; [Some (ch, it)] is [return true]. *)
Definition safe_decode_next (s : str) (it : nat) : outcome (option (N * nat)) :=
  if Nat.eqb it (length s) then Ok None
  else
    let* p := decode_next s it in
    let (ch, it') := p in
    if ch =? INVALID_CHAR then Throw YstringException
    else Ok (Some (ch, it')).

(** DecodeUtf8.hpp:193-202 [safe_decode_prev(begin, it, ch)] *)
Definition safe_decode_prev (s : str) (it : nat) : outcome (option (N * nat)) :=
  if Nat.eqb it 0 then Ok None
  else
    let* p := decode_prev s it in
    let (ch, it') := p in
    if ch =? INVALID_CHAR then Throw YstringException
    else Ok (Some (ch, it')).

(** The four view-shrinking functions return the new contents of the view.
    When they throw, [str] has not been assigned, so it keeps its old value. *)

(** DecodeUtf8.hpp:204-211 *)
Definition remove_utf8_codepoint (s : str) : outcome (bool * str) :=
  let* r := skip_next s 0 in
  match r with
  | None => Ok (false, s)
  | Some it => Ok (true, skipn it s)
  end.

(** DecodeUtf8.hpp:213-222 *)
Definition pop_utf8_codepoint (s : str) : outcome (option N * str) :=
  let* r := safe_decode_next s 0 in
  match r with
  | None => Ok (None, s)
  | Some (ch, it) => Ok (Some ch, skipn it s)
  end.

(** DecodeUtf8.hpp:224-231 *)
Definition remove_last_utf8_codepoint (s : str) : outcome (bool * str) :=
  let* r := skip_prev s (length s) in
  match r with
  | None => Ok (false, s)
  | Some it => Ok (true, firstn it s)
  end.

(** DecodeUtf8.hpp:233-242 *)
Definition pop_last_utf8_codepoint (s : str) : outcome (option N * str) :=
  let* r := safe_decode_prev s (length s) in
  match r with
  | None => Ok (None, s)
  | Some (ch, it) => Ok (Some ch, firstn it s)
  end.
