(** Model of the stream operators of Subrange (src/Ystring/Subrange.cpp) and
    CodepointSet (src/Ystring/Char32Set.cpp) for a stream in any state.
    Model/Print.v and [print_cpset] have them for a stream in its default state. *)
From Verif Require Import Base Model.Encode Model.Subrange Model.CodepointSet.

(** What a std::ostream remembers: its flags, its width and fill character, and
    whether it is good.  [os_text] is what was written so far; [os_room] is how
    many more bytes the stream buffer takes, [None] if there is no limit.
    Simplifications: the classic locale; an exceptions() mask of 0, as after
    construction, so that a failing stream throws nothing. *)
Inductive numbase := BaseDec | BaseHex | BaseOct.
Inductive adjustment := AdjLeft | AdjRight | AdjInternal.
Record ostream := OStream {
  os_text : str; os_good : bool; os_room : option nat;
  os_width : N; os_fill : byte; os_adjust : adjustment;
  os_base : numbase; os_showbase : bool; os_uppercase : bool }.

(** The stream after [bs] went to its buffer, with its width used up. *)
Definition os_write (o : ostream) (bs : str) : ostream :=
  let fits := match os_room o with None => true | Some n => Nat.leb (length bs) n end in
  OStream (os_text o ++ match os_room o with None => bs | Some n => firstn n bs end) fits
    (match os_room o with None => None | Some n => Some (n - length bs)%nat end)
    0 (os_fill o) (os_adjust o) (os_base o) (os_showbase o) (os_uppercase o).

(** A formatted output function of the standard library: nothing if the stream
    is not good, otherwise [sign ++ body] filled up to the width; [sign] is what
    AdjInternal keeps in front of the fill characters. *)
Definition os_put (o : ostream) (sign body : str) : ostream :=
  if os_good o then
    let pad := repeat (os_fill o) (N.to_nat (os_width o - size (sign ++ body))) in
    os_write o (match os_adjust o with
                | AdjLeft => sign ++ body ++ pad
                | AdjRight => pad ++ sign ++ body
                | AdjInternal => sign ++ pad ++ body
                end)
  else o.

(** [os << s] for a char, a const char* and a std::string *)
Definition os_put_str (o : ostream) (s : str) : ostream := os_put o [] s.

Definition base_value (b : numbase) : N := match b with BaseDec => 10 | BaseHex => 16 | BaseOct => 8 end.
Definition digit_char (uppercase : bool) (d : N) : byte :=
  if d <? 10 then to_char (0x30 + d) else to_char ((if uppercase then 0x41 else 0x61) + (d - 10)).
Fixpoint print_digits (fuel : nat) (base : N) (uppercase : bool) (n : N) (digits : str) : str :=
  match fuel with
  | O => digits
  | S fuel' =>
    let digits := digit_char uppercase (n mod base) :: digits in
    if n / base =? 0 then digits else print_digits fuel' base uppercase (n / base) digits
  end.

(** [os << n] for a size_t *)
Definition os_put_number (o : ostream) (n : N) : ostream :=
  let digits := print_digits (S (N.to_nat (N.size n))) (base_value (os_base o)) (os_uppercase o) n [] in
  match os_base o with
  | BaseDec => os_put o [] digits
  | BaseHex => os_put o (if os_showbase o && negb (n =? 0) then [x30; if os_uppercase o then x58 else x78] else []) digits
  | BaseOct => os_put o [] (if os_showbase o && negb (n =? 0) then x30 :: digits else digits)
  end.

(** Subrange.cpp:13-17 [operator<<(std::ostream&, const Subrange&)] *)
Definition os_put_subrange (o : ostream) (s : subrange) : ostream :=
  let o := os_put_str o [x7b; x6f; x66; x66; x73; x65; x74; x3a; x20] in
  let o := os_put_number o (sub_offset s) in
  let o := os_put_str o [x2c; x20; x6c; x65; x6e; x67; x74; x68; x3a; x20] in
  let o := os_put_number o (sub_length s) in
  os_put_str o [x7d].

(** Char32Set.cpp:57-63 *)
Fixpoint os_put_ranges (o : ostream) (ranges : list (N * N)) : ostream :=
  match ranges with
  | [] => o
  | r :: ranges' =>
    let o :=
      if fst r =? snd r then os_put_str o (from_utf32_char (fst r))
      else
        let o := os_put_str o (from_utf32_char (fst r)) in
        let o := os_put_str o [x2d] in
        os_put_str o (from_utf32_char (snd r)) in
    os_put_ranges o ranges'
  end.

(** Char32Set.cpp:54-65 [operator<<(std::ostream&, const CodepointSet&)] *)
Definition os_put_set (o : ostream) (s : cpset) : ostream :=
  let o := os_put_str o (if cps_negated s then [x5b; x5e] else [x5b]) in
  os_put_str (os_put_ranges o (cps_ranges s)) [x5d].
