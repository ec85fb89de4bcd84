(** Case conversion of lists of code points. *)
From Verif Require Import Base Spec.Category Spec.UnicodeData.

Definition lower_cps (cs : list N) : list N := map simple_lower cs.

(** U+00DF becomes SS. *)
Definition upper_cps (cs : list N) : list N :=
  flat_map (fun c => if c =? 0xDF then [0x53; 0x53] else [simple_upper c]) cs.

(** [prev]: the code point before was a letter. *)
Fixpoint title_cps (letter : N -> bool) (prev : bool) (cs : list N) : list N :=
  match cs with
  | [] => []
  | c :: cs' =>
    if letter c then
      (if prev then [simple_lower c] else if c =? 0xDF then [0x53; 0x73] else [simple_title c])
        ++ title_cps letter true cs'
    else c :: title_cps letter false cs'
  end.

Definition is_letter_category (k : category) : bool :=
  match k with Lu | Ll | Lt | Lm | Lo => true | _ => false end.
Definition unicode_letter (c : N) : bool := is_letter_category (category_of c).

(** The text [u] ends with a letter. *)
Definition ends_with_letter (letter : N -> bool) (u : list N) : Prop := exists w l, u = w ++ [l] /\ letter l = true.
