(** Model of src/Ystring/CharClass.cpp, include/Ystring/CharClass.hpp and
    include/Ystring/CodepointPredicates.hpp. *)
From Verif Require Import Base Model.Decode Tables.CharClassTables.

(** CharClass.hpp:26-104 *)
Definition UPPERCASE_LETTER : N := 0x00000001.
Definition LOWERCASE_LETTER : N := 0x00000002.
Definition TITLECASE_LETTER : N := 0x00000004.
Definition CASED_LETTER : N := 0x00000007.
Definition MODIFIER_LETTER : N := 0x00000008.
Definition OTHER_LETTER : N := 0x00000010.
Definition LETTER : N := 0x0000001F.
Definition NONSPACING_MARK : N := 0x00000020.
Definition SPACING_MARK : N := 0x00000040.
Definition ENCLOSING_MARK : N := 0x00000080.
Definition MARK : N := 0x000000E0.
Definition DECIMAL_NUMBER : N := 0x00000100.
Definition LETTER_NUMBER : N := 0x00000200.
Definition OTHER_NUMBER : N := 0x00000400.
Definition NUMBER : N := 0x00000700.
Definition CONNECTOR_PUNCTUATION : N := 0x00000800.
Definition DASH_PUNCTUATION : N := 0x00001000.
Definition OPEN_PUNCTUATION : N := 0x00002000.
Definition CLOSE_PUNCTUATION : N := 0x00004000.
Definition INITIAL_PUNCTUATION : N := 0x00008000.
Definition FINAL_PUNCTUATION : N := 0x00010000.
Definition OTHER_PUNCTUATION : N := 0x00020000.
Definition PUNCTUATION : N := 0x0003F800.
Definition MATH_SYMBOL : N := 0x00040000.
Definition CURRENCY_SYMBOL : N := 0x00080000.
Definition MODIFIER_SYMBOL : N := 0x00100000.
Definition OTHER_SYMBOL : N := 0x00200000.
Definition SYMBOL : N := 0x003C0000.
Definition SPACE_SEPARATOR : N := 0x00400000.
Definition CLASS_LINE_SEPARATOR : N := 0x00800000.
Definition CLASS_PARAGRAPH_SEPARATOR : N := 0x01000000.
Definition SEPARATOR : N := 0x01C00000.
Definition CONTROL : N := 0x02000000.
Definition FORMAT : N := 0x04000000.
Definition SURROGATE : N := 0x08000000.
Definition PRIVATE_USE : N := 0x10000000.
Definition UNASSIGNED : N := 0x20000000.
Definition OTHER : N := 0x3E000000.

(** CharClass.cpp:40 *)
Definition CODE_POINT_SHIFT : N := 11.

(** [a - b] on 32-bit unsigned values. *)
Definition sub32 (a b : N) : N := (a + (W32 - b mod W32)) mod W32.

(** CharClass.cpp:42-58 *)
Definition decode_char_class (code_point encoded_char_class : N) : N :=
  let lower_char_class := N.land encoded_char_class 0x1F in
  let upper_char_class := N.land (N.shiftr encoded_char_class 5) 0x3F in
  if upper_char_class =? 0 then sub32 lower_char_class 1
  else
    let end_code_point := N.shiftr encoded_char_class CODE_POINT_SHIFT in
    if upper_char_class =? 0x20 then
      if negb (N.land (N.lxor code_point end_code_point) 1 =? 0)
      then sub32 1 (sub32 lower_char_class 1)
      else sub32 lower_char_class 1
    else if code_point =? end_code_point then sub32 lower_char_class 1
    else sub32 upper_char_class 1.

(** [1u << n]: undefined for n >= 32. *)
Definition one_shl (n : N) : outcome N := if n <? 32 then Ok (shl32 1 n) else UB.

(** CharClass.cpp:61-73 *)
Definition get_char_class (code_point : N) : outcome N :=
  if code_point <? 128 then
    let* c := deref ASCII_CHAR_CLASSES (N.to_nat code_point) in one_shl c
  else
    let key := shl32 code_point CODE_POINT_SHIFT in
    match lower_bound (fun e => e <? key) COMPLETE_CHAR_CLASSES with
    | None => Ok UNASSIGNED
    | Some e => one_shl (decode_char_class code_point e)
    end.

(** The value of [get_char_class]; it is proved that the default is never
    taken (get_char_class never has undefined behaviour). *)
Definition char_class (c : N) : N :=
  match get_char_class c with Ok v => v | _ => 0 end.

(** [(get_char_class(c) & mask) != 0] *)
Definition has_class (c mask : N) : bool := negb (N.land (char_class c) mask =? 0).

(** CodepointPredicates.hpp:22-25 *)
Definition is_alpha_numeric (c : N) : bool := has_class c (N.lor LETTER NUMBER).
(** CodepointPredicates.hpp:31-34 *)
Definition is_cased_letter (c : N) : bool := has_class c CASED_LETTER.
(** CodepointPredicates.hpp:39-42 *)
Definition is_control (c : N) : bool := has_class c CONTROL.
(** CodepointPredicates.hpp:47-50 *)
Definition is_format (c : N) : bool := has_class c FORMAT.
(** CodepointPredicates.hpp:56-63 *)
Definition is_graphical (c : N) : bool :=
  has_class c (N.lor (N.lor (N.lor (N.lor LETTER MARK) NUMBER) PUNCTUATION) SYMBOL).
(** CodepointPredicates.hpp:69-74 *)
Definition is_hex_digit (c : N) : bool :=
  ((0x30 <=? c) && (c <=? 0x39)) || ((0x41 <=? c) && (c <=? 0x46)) || ((0x61 <=? c) && (c <=? 0x66)).
(** CodepointPredicates.hpp:79-82 *)
Definition is_letter (c : N) : bool := has_class c LETTER.
(** CodepointPredicates.hpp:87-90 *)
Definition is_lower (c : N) : bool := has_class c LOWERCASE_LETTER.
(** CodepointPredicates.hpp:95-98 *)
Definition is_mark (c : N) : bool := has_class c MARK.
(** CodepointPredicates.hpp:107-112 *)
Definition is_newline (c : N) : bool :=
  (c =? 0x0A) || (c =? 0x0B) || (c =? 0x0C) || (c =? 0x0D) ||
  (c =? NEXT_LINE) || (c =? LINE_SEPARATOR) || (c =? PARAGRAPH_SEPARATOR).
(** CodepointPredicates.hpp:120-123 *)
Definition is_number (c : N) : bool := has_class c NUMBER.
(** CodepointPredicates.hpp:128-131 *)
Definition is_punctuation (c : N) : bool := has_class c PUNCTUATION.
(** CodepointPredicates.hpp:136-139 *)
Definition is_separator (c : N) : bool := has_class c SEPARATOR.
(** CodepointPredicates.hpp:145-148 *)
Definition is_surrogate (c : N) : bool := has_class c SURROGATE.
(** CodepointPredicates.hpp:153-156 *)
Definition is_symbol (c : N) : bool := has_class c SYMBOL.
(** CodepointPredicates.hpp:161-164 *)
Definition is_upper (c : N) : bool := has_class c UPPERCASE_LETTER.
(** CodepointPredicates.hpp:171-179 *)
Definition is_visible (c : N) : bool :=
  has_class c (N.lor (N.lor (N.lor (N.lor (N.lor LETTER MARK) NUMBER) PUNCTUATION) SYMBOL) SEPARATOR).
(** CodepointPredicates.hpp:187-191 *)
Definition is_whitespace (c : N) : bool :=
  (c =? 0x09) || (c =? 0x20) || is_newline c || ((128 <? c) && has_class c SEPARATOR).
