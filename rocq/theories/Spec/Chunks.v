(** Two programs of a user of the library (C134): taking all the code points a
    string has, and doing so with a text that arrives in pieces. *)
From Verif Require Import Base Model.Callbacks Model.References.

(** [Popped s cs r]: a view of [s] is passed to pop_utf8_codepoint (its local
    variable starting with any value) again and again, until it returns nothing or
    throws; it returned [cs], and the view is [r] at the end. *)
Inductive Popped : str -> list N -> str -> Prop :=
| Popped_none ch0 s r : pop_utf8_codepoint_ref ch0 s = (Ok None, r) -> Popped s [] r
| Popped_throw ch0 s e r : pop_utf8_codepoint_ref ch0 s = (Throw e, r) -> Popped s [] r
| Popped_some ch0 s c t cs r : pop_utf8_codepoint_ref ch0 s = (Ok (Some c), t) -> Popped t cs r -> Popped s (c :: cs) r.

(** [Fed held chunks cs r]: each of [chunks] is appended to what is held back,
    at first [held], and the code points are taken; these are [cs] in all, and [r]
    is held back at the end. *)
Inductive Fed : str -> list str -> list N -> str -> Prop :=
| Fed_end held : Fed held [] [] held
| Fed_chunk held x cs r xs cs' r' : Popped (held ++ x) cs r -> Fed r xs cs' r' -> Fed held (x :: xs) (cs ++ cs') r'.
