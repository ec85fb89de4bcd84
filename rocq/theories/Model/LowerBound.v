(** How std::lower_bound (called in CharClass.cpp:66-69, Normalize.cpp:24-26 and
    38-40, ConvertCase.cpp:27-31 and 45-50) finds its position: the halving loop
    of the usual implementations. *)
From Verif Require Import Base.

(** [it = first; advance(it, len / 2)]; [OutOfFuel] cannot occur (the interval
    shrinks), [UB] would be a read outside the table. *)
Fixpoint halving {A} (less : A -> bool) (l : list A) (fuel first len : nat) : outcome nat :=
  match fuel with
  | O => OutOfFuel
  | S fuel' =>
    if Nat.eqb len 0 then Ok first
    else
      let half := Nat.div2 len in
      match nth_error l (first + half) with
      | None => UB
      | Some x => if less x then halving less l fuel' (first + half + 1) (len - (half + 1))
                  else halving less l fuel' first half
      end
  end.
Definition std_lower_bound {A} (less : A -> bool) (l : list A) : outcome nat :=
  halving less l (S (length l)) 0 (length l).
