(** Comparing text without regard to case. *)
From Verif Require Import Base Spec.Utf8Spec Spec.UnicodeData.

(** Case is removed by the simple upper-case mapping of UnicodeData. *)
Definition fold_case (cs : list N) : list N := map simple_upper cs.

(** Lexicographic order. *)
Fixpoint lex (a b : list N) : comparison :=
  match a, b with
  | [], [] => Eq
  | [], _ => Lt
  | _, [] => Gt
  | x :: a', y :: b' => match x ?= y with Eq => lex a' b' | o => o end
  end.

(** [g] is the first piece of [u ++ g ++ v] equal to [ps] but for case: none
    ends before [g] does.  What follows [g] is the end or a code point. *)
Definition first_ci (ps : list N) (u g v : str) : Prop :=
  exists us gs, Text u us /\ Text g gs /\ fold_case gs = fold_case ps /\
    (forall x y z, us ++ gs = x ++ y ++ z -> fold_case y = fold_case ps -> z = []) /\
    ~ Malformed v.

(** The last one: none begins after [g] does; what precedes [g] is the start or
    a code point. *)
Definition last_ci (ps : list N) (u g v : str) : Prop :=
  exists gs vs, Text v vs /\ Text g gs /\ fold_case gs = fold_case ps /\
    (forall x y z, gs ++ vs = x ++ y ++ z -> fold_case y = fold_case ps -> x = []) /\
    ~ MalformedEnd u.

(** A valid text without any. *)
Definition no_ci (ps : list N) (t : str) : Prop :=
  exists cs, Text t cs /\ forall x y z, cs = x ++ y ++ z -> fold_case y <> fold_case ps.

(** [r] is [s] with at most [n] pieces equal to [ps] but for case replaced by
    [to], the leftmost one first, then the leftmost one after it, and so on,
    until [n] is used up or none is left. *)
Inductive CiReplaceFront (ps : list N) (to : str) : N -> str -> str -> Prop :=
| cf_zero s : CiReplaceFront ps to 0 s s
| cf_none n s : no_ci ps s -> CiReplaceFront ps to n s s
| cf_step n u g v r : first_ci ps u g v -> CiReplaceFront ps to n v r ->
    CiReplaceFront ps to (n + 1) (u ++ g ++ v) (u ++ to ++ r).

(** The mirror image: the rightmost one first. *)
Inductive CiReplaceBack (ps : list N) (to : str) : N -> str -> str -> Prop :=
| cb_zero s : CiReplaceBack ps to 0 s s
| cb_none n s : no_ci ps s -> CiReplaceBack ps to n s s
| cb_step n u g v r : last_ci ps u g v -> CiReplaceBack ps to n u r ->
    CiReplaceBack ps to (n + 1) (u ++ g ++ v) (r ++ to ++ v).

(** [c] is one of [chars], but for case. *)
Definition ci_in (chars : list N) (c : N) : Prop := exists d, In d chars /\ simple_upper c = simple_upper d.

(** Separator: one code point from [chars], none in the part before it. *)
Definition first_ci_char (chars : list N) (u g v : str) : Prop :=
  exists us c, Text u us /\ Forall (fun x => ~ ci_in chars x) us /\ uchar g c /\ ci_in chars c.
Definition no_ci_char (chars : list N) (t : str) : Prop := exists us, Text t us /\ Forall (fun x => ~ ci_in chars x) us.

(** Pieces of [cs] equal to [ps] but for case: none ends before the end of
    [cs]; none begins after its start. *)
Definition only_at_end (ps cs : list N) : Prop := forall x y z, cs = x ++ y ++ z -> fold_case y = fold_case ps -> z = [].
Definition only_at_start (ps cs : list N) : Prop := forall x y z, cs = x ++ y ++ z -> fold_case y = fold_case ps -> x = [].

(** [CiStuckFront ps n s]: replacing like [CiReplaceFront], a malformed sequence
    is met before [n] is used up. *)
Inductive CiStuckFront (ps : list N) : N -> str -> Prop :=
| sf_here n u us r : 1 <= n -> Text u us -> Malformed r -> only_at_end ps us -> CiStuckFront ps n (u ++ r)
| sf_step n u g v : first_ci ps u g v -> CiStuckFront ps n v -> CiStuckFront ps (n + 1) (u ++ g ++ v).

(** The mirror image; [r] is the text that has a malformed end. *)
Inductive CiStuckBack (ps : list N) : N -> str -> str -> Prop :=
| sb_here n r u us : 1 <= n -> Text u us -> MalformedEnd r -> only_at_start ps us -> CiStuckBack ps n (r ++ u) r
| sb_step n u g v r : last_ci ps u g v -> CiStuckBack ps n u r -> CiStuckBack ps (n + 1) (u ++ g ++ v) r.

(** Comparing the code points [us] of a text, [bad] if a malformed sequence
    follows them, with a pattern [vs] followed by a malformed sequence reads one
    of these: all of [vs] is matched and the text goes on, or the text's
    malformed sequence comes first.  Backwards likewise. *)
Definition reads (us : list N) (bad : bool) (vs : list N) : Prop :=
  (exists x c y, us = x ++ c :: y /\ fold_case x = fold_case vs) \/
  (bad = true /\ exists a b, vs = a ++ b /\ fold_case us = fold_case a).
Definition reads_back (us : list N) (bad : bool) (vs : list N) : Prop :=
  (exists y c x, us = y ++ c :: x /\ fold_case x = fold_case vs) \/
  (bad = true /\ exists a b, vs = b ++ a /\ fold_case us = fold_case a).
