(** The predicates of CodepointPredicates.hpp that do not ask for the case. *)
From Verif Require Import Base Model.CharClass.

Definition caseless_predicates : list (N -> bool) :=
  [is_letter; is_cased_letter; is_alpha_numeric; is_mark; is_number; is_punctuation; is_symbol; is_separator; is_control; is_format;
   is_surrogate; is_graphical; is_visible; is_whitespace; is_newline; is_hex_digit].
