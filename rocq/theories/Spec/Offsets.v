(** Results of a search in a part of a text, seen from the whole text. *)
From Verif Require Import Base Model.Subrange.

(** The range moved [k] bytes to the right; an offset of npos means that there
    is none. *)
Definition moved (k : N) (r : subrange) : subrange :=
  if sub_offset r =? npos then r else Sub (k + sub_offset r) (sub_length r).

(** The result moved, exceptions and the rest as they are. *)
Definition moved_result (k : N) (m : outcome subrange) : outcome subrange := omap (moved k) m.
Definition moved_char (k : N) (m : outcome (subrange * N)) : outcome (subrange * N) :=
  omap (fun p => (moved k (fst p), snd p)) m.
