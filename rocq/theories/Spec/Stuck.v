(** Counting characters from the end of a text that can not be decoded. *)
From Verif Require Import Base Spec.Utf8Spec Spec.Slices.

(** Counting [- k] characters from the end of [s] reaches a text [r] whose end can
    not be decoded: [ps] are the characters before that, [m] are marks behind
    [r], which belong to a character that can not be decoded. *)
Definition stuck (is_mark : N -> bool) (s : str) (k : Z) : Prop :=
  exists r m us ps, s = r ++ m ++ concat ps /\ Text m us /\ Forall (fun c => is_mark c = true) us /\
    (Forall (one_char is_mark) ps /\ Forall (starts_unmarked is_mark) ps) /\ (Z.of_nat (length ps) < - k)%Z /\ long_cont_tail r.
