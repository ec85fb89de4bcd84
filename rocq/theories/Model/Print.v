(** Model of src/Ystring/Subrange.cpp (the stream output of a Subrange). *)
From Verif Require Import Base Model.Subrange.

(** [os << n] for a [size_t] and a stream in its default state: the standard
    library's decimal conversion, least significant digit first into a buffer.
    The fuel is the number of bits of [n] plus one, at least the number of digits. *)
Fixpoint print_decimal_loop (fuel : nat) (n : N) (digits : str) : str :=
  match fuel with
  | O => digits
  | S fuel' =>
    let digits := to_char (0x30 + n mod 10) :: digits in
    if n / 10 =? 0 then digits else print_decimal_loop fuel' (n / 10) digits
  end.
Definition print_decimal (n : N) : str := print_decimal_loop (S (N.to_nat (N.size n))) n [].

(** Subrange.cpp:13-17 [operator<<(std::ostream&, const Subrange&)]: the bytes
    written to the stream. *)
Definition print_subrange (s : subrange) : str :=
  [x7b; x6f; x66; x66; x73; x65; x74; x3a; x20] ++ print_decimal (sub_offset s)
  ++ [x2c; x20; x6c; x65; x6e; x67; x74; x68; x3a; x20] ++ print_decimal (sub_length s) ++ [x7d].
