(** Model of src/Ystring/EncodeUtf8.hpp and src/Ystring/Utf32.cpp. *)
From Verif Require Import Base Model.Decode.

(** EncodeUtf8.hpp:33-37, the [for (i = 1; i < chr_length; i++)] loop; [k] is
    [chr_length - i].  [shift] never goes below 0 because it starts at 6 times
    the number of iterations. *)
Fixpoint encode_tail (chr : N) (k : nat) (shift : N) : str :=
  match k with
  | O => []
  | S k' =>
    let shift := shift - 6 in
    to_char (N.lor 0x80 (N.land (N.shiftr chr shift) 0x3F)) :: encode_tail chr k' shift
  end.

(** EncodeUtf8.hpp:22-40 [detail::encode_utf8(chr, chr_length, it)]: the bytes
    written through the output iterator.  The value returned is [chr_length]. *)
Definition encode_bytes (chr chr_length : N) : str :=
  if chr_length =? 1 then [to_char chr]
  else if chr_length =? 0 then []
  else
    let shift := (chr_length - 1) * 6 in
    to_char (N.lor (shl32 0xFF (8 - chr_length)) (N.shiftr chr shift))
      :: encode_tail chr (N.to_nat (chr_length - 1)) shift.

(** EncodeUtf8.hpp:43-55 *)
Definition get_utf8_encoded_length (c : N) : N :=
  if c <? 0x80 then 1
  else if c <? 0x800 then 2
  else if c <? 0x10000 then 3
  else if c <=? UNICODE_MAX then 4
  else 0.

(** EncodeUtf8.hpp:61-66 [encode_utf8(code_point, OutputIt)]: bytes written and
    value returned. *)
Definition encode_utf8 (code_point : N) : str * N :=
  (encode_bytes code_point (get_utf8_encoded_length code_point),
   get_utf8_encoded_length code_point).

(** EncodeUtf8.hpp:80-86 [encode_utf8(code_point, dst, dst_size)] *)
Definition encode_utf8_buf (code_point dst_size : N) : str * N :=
  let length := get_utf8_encoded_length code_point in
  let length := if dst_size <? length then 0 else length in
  (encode_bytes code_point length, length).

(** Utf32.cpp:14-19 [from_utf32(char32_t)] *)
Definition from_utf32_char (ch : N) : str := fst (encode_utf8 ch).

(** Utf32.cpp:21-28 [from_utf32(u32string_view)] *)
Fixpoint from_utf32 (s : u32str) : str :=
  match s with
  | [] => []
  | ch :: s' => fst (encode_utf8 ch) ++ from_utf32 s'
  end.

(** Utf32.cpp:35-36, the loop of [to_utf32].  Each iteration advances [it], so
    [fuel = length + 1] is never exhausted (proved). *)
Fixpoint to_utf32_loop (fuel : nat) (s : str) (it : nat) (result : u32str) : outcome u32str :=
  match fuel with
  | O => OutOfFuel
  | S fuel' =>
    let* r := safe_decode_next s it in
    match r with
    | None => Ok result
    | Some (ch, it') => to_utf32_loop fuel' s it' (result ++ [ch])
    end
  end.

(** Utf32.cpp:30-38 *)
Definition to_utf32 (s : str) : outcome u32str := to_utf32_loop (S (length s)) s 0 [].
