(** What is written to a stream. *)
From Verif Require Import Base Spec.Utf8Spec Spec.Escape.

Definition dec_digit (c : byte) (d : N) : Prop := d < 10 /\ u8 c = 0x30 + d.
(** The usual decimal numeral: at least one digit, no superfluous leading zero. *)
Definition Decimal (ds : str) (n : N) : Prop :=
  Numeral dec_digit 10 ds n /\ ds <> [] /\ (forall ds', ds = x30 :: ds' -> ds' = []).

(** A set of code points in brackets, a caret meaning all others; a range is
    its ends with a hyphen between, or the code point if there is only one. *)
Definition shown_range (r : N * N) : list N :=
  let (a, b) := r in if a =? b then [a] else [a; 0x2D; b].
Definition shown_set (negated : bool) (ranges : list (N * N)) : list N :=
  [0x5B] ++ (if negated then [0x5E] else []) ++ flat_map shown_range ranges ++ [0x5D].
