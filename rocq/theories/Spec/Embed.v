(** Escaped texts that can be followed by anything. *)
From Verif Require Import Base Spec.Escape.

(** The escape sequence [e], followed by [q], has been read completely: whatever
    comes after [q], it means the same. *)
Definition closed (e q : str) : Prop :=
  (* \x takes all the digits there are, an octal escape up to three *)
  (q = [] -> ~ (exists x ds, e = x5c :: x :: ds /\ (x = x78 \/ x = x58)) /\
             ~ (exists ds v, e = x5c :: ds /\ (1 <= length ds < 3)%nat /\ Oct ds v)) /\
  (* after the first half of a surrogate pair six bytes are looked at, and must be in order *)
  ((exists ds v, e = x5c :: x75 :: ds /\ length ds = 4%nat /\ Hex ds v /\ high_surrogate v) -> (6 <= length q)%nat /\ ~ Obstructed q).

(** A text after which some texts cannot be put: it ends in a hexadecimal digit,
    or with the first half of a surrogate pair and fewer than six bytes. *)
Definition loose_end (s : str) : Prop :=
  (exists p c d, s = p ++ [c] /\ hex_digit c d) \/
  (exists p ds v q, s = p ++ [x5c; x75] ++ ds ++ q /\ length ds = 4%nat /\ Hex ds v /\ high_surrogate v /\ (length q < 6)%nat).

(** The elements of two lists alternately: l1 x1 l2 x2 ... *)
Fixpoint interleave {A} (ls xs : list A) : list A :=
  match ls, xs with l :: ls', x :: xs' => l :: x :: interleave ls' xs' | _, _ => [] end.
