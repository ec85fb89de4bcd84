(** What replacing means. *)
From Verif Require Import Base Spec.Utf8Spec Spec.Strings.

(** [r] is [s] with at most [n] occurrences of [from] replaced by [to], taken
    from the left: the leftmost occurrence first, then the leftmost one in the
    text after it, and so on, stopping only when [n] is used up or none is left. *)
Inductive ReplaceFront (from to : str) : N -> str -> str -> Prop :=
| rf_zero s : ReplaceFront from to 0 s s
| rf_none n s : (forall i, ~ occurs_at from s i) -> ReplaceFront from to n s s
| rf_step n u v r :
    (forall i, (i < length u)%nat -> ~ occurs_at from (u ++ from ++ v) i) ->
    ReplaceFront from to n v r ->
    ReplaceFront from to (n + 1) (u ++ from ++ v) (u ++ to ++ r).

(** The mirror image: the rightmost occurrence first. *)
Inductive ReplaceBack (from to : str) : N -> str -> str -> Prop :=
| rb_zero s : ReplaceBack from to 0 s s
| rb_none n s : (forall i, ~ occurs_at from s i) -> ReplaceBack from to n s s
| rb_step n u v r :
    (forall i, (length v < i)%nat -> ~ occurs_at from (v ++ from ++ u) i) ->
    ReplaceBack from to n v r ->
    ReplaceBack from to (n + 1) (v ++ from ++ u) (r ++ to ++ u).

(** Replacement in a list of code points. *)
Fixpoint replace_first_cps (n : N) (a b : N) (cs : list N) : list N :=
  match cs with
  | [] => []
  | c :: cs' =>
    if (c =? a) && (0 <? n) then b :: replace_first_cps (n - 1) a b cs'
    else c :: replace_first_cps n a b cs'
  end.
Definition replace_last_cps (n : N) (a b : N) (cs : list N) : list N :=
  rev (replace_first_cps n a b (rev cs)).

(** [r] is [s] with one [repl] for each maximal malformed piece: a byte at which
    no sequence starts, together with all continuation bytes that follow it. *)
Inductive Repaired (repl : str) : str -> str -> Prop :=
| rep_nil : Repaired repl [] []
| rep_valid g c s r : uchar g c -> Repaired repl s r -> Repaired repl (g ++ s) (g ++ r)
| rep_bad b t s r :
    Malformed (b :: t ++ s) -> Forall cont t ->
    (forall x s', s = x :: s' -> ~ cont x) ->
    Repaired repl s r -> Repaired repl (b :: t ++ s) (repl ++ r).

(** The same on a text cut into units: the first / last [n] units equal to [f]
    become [t], all others stay as they are. *)
Definition unit_eqb (f g : str) : bool := if list_eq_dec Byte.byte_eq_dec f g then true else false.
Fixpoint replace_first_units (n : N) (f t : str) (ps : list str) : list str :=
  match ps with
  | [] => []
  | g :: ps' =>
    if unit_eqb f g && (0 <? n) then t :: replace_first_units (n - 1) f t ps'
    else g :: replace_first_units n f t ps'
  end.
Definition replace_last_units (n : N) (f t : str) (ps : list str) : list str :=
  rev (replace_first_units n f t (rev ps)).
