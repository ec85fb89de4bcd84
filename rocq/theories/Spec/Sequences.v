(** Replacing and splitting in lists of anything, for comparing what the library
    does to bytes with the same done to code points. *)
From Verif Require Import Base.

Section Sequences.
  Context {A : Type}.
  Implicit Types p s u v r sep : list A.

  (** [p] begins nowhere in [s] before position [k]. *)
  Definition absent_before (p s : list A) (k : nat) : Prop :=
    forall u v, s = u ++ p ++ v -> (k <= length u)%nat.
  (** [p] begins nowhere in [s] after position [k]. *)
  Definition absent_after (p s : list A) (k : nat) : Prop :=
    forall u v, s = u ++ p ++ v -> (length u <= k)%nat.
  Definition absent (p s : list A) : Prop := forall u v, s <> u ++ p ++ v.

  (** [r] is [s] with at most [n] of its [p] replaced by [q]: the leftmost one,
      then the leftmost one after it, and so on. *)
  Inductive replaced_first (p q : list A) : N -> list A -> list A -> Prop :=
  | first_enough s : replaced_first p q 0 s s
  | first_none n s : absent p s -> replaced_first p q n s s
  | first_next n u v r : absent_before p (u ++ p ++ v) (length u) -> replaced_first p q n v r ->
      replaced_first p q (n + 1) (u ++ p ++ v) (u ++ q ++ r).

  (** The mirror image: the rightmost one, then the rightmost one before it. *)
  Inductive replaced_last (p q : list A) : N -> list A -> list A -> Prop :=
  | last_enough s : replaced_last p q 0 s s
  | last_none n s : absent p s -> replaced_last p q n s s
  | last_next n u v r : absent_after p (u ++ p ++ v) (length u) -> replaced_last p q n u r ->
      replaced_last p q (n + 1) (u ++ p ++ v) (r ++ q ++ v).

  (** [parts] is what is left of [s] when at most [n] of its [sep] are taken
      out, from the left. *)
  Inductive parted (sep : list A) : N -> list A -> list (list A) -> Prop :=
  | parted_enough s : parted sep 0 s [s]
  | parted_none n s : absent sep s -> parted sep n s [s]
  | parted_next n u v parts : absent_before sep (u ++ sep ++ v) (length u) -> parted sep n v parts ->
      parted sep (n + 1) (u ++ sep ++ v) (u :: parts).
End Sequences.

(** The rest of [l] behind its first elements that satisfy [p]; and without its
    last elements that do. *)
Fixpoint drop_while {A} (p : A -> bool) (l : list A) : list A :=
  match l with [] => [] | x :: l' => if p x then drop_while p l' else l end.
Definition drop_end_while {A} (p : A -> bool) (l : list A) : list A := rev (drop_while p (rev l)).

(** The elements of [l] with [d] between neighbours. *)
Fixpoint joined {A} (d : list A) (l : list (list A)) : list A :=
  match l with [] => [] | [x] => x | x :: l' => x ++ d ++ joined d l' end.

(** Code points in groups, one for each character: any code point and the marks
    that follow it; only the first group may start with a mark. *)
Definition groups (mark : N -> bool) (css : list (list N)) : Prop :=
  Forall (fun l => exists c ms, l = c :: ms /\ Forall (fun m => mark m = true) ms) css /\
  Forall (fun l => exists c t, l = c :: t /\ mark c = false) (tl css).
