(** The number of characters of a text, from its code points: the first code
    point and every later one that is no combining mark starts a character. *)
From Verif Require Import Base Spec.Category Spec.UnicodeData.

Definition combining (c : N) : bool := match category_of c with Mn | Mc | Me => true | _ => false end.
Definition char_count (cs : list N) : N :=
  match cs with [] => 0 | _ :: t => 1 + N.of_nat (length (filter (fun c => negb (combining c)) t)) end.

(** How often a code point occurs. *)
Definition times (c : N) (cs : list N) : N := N.of_nat (length (filter (N.eqb c) cs)).
