(** Several edits of one text. *)
From Verif Require Import Base Spec.Utf8Spec Spec.Strings Spec.Slices.

(** [Batch pos ps es rs]: [ps] are the units from number [pos] on.  Each edit
    (i, j, t) of [es] says that the units i .. j-1 become [t]; the edits are in
    ascending order and do not overlap, and [rs] is what all of them make of [ps]. *)
Inductive Batch : nat -> list str -> list (Z * Z * str) -> list str -> Prop :=
| batch_nil pos ps : Batch pos ps [] ps
| batch_cons pos a o rest qs es rs :
    Batch (pos + length a + length o) rest es rs ->
    Batch pos (a ++ o ++ rest)
      ((Z.of_nat (pos + length a), Z.of_nat (pos + length a + length o), concat qs) :: es)
      (a ++ qs ++ rs).

Section Orders.
Context (rep : str -> Z -> Z -> str -> outcome str) (count : str -> outcome N).
(** The last edit first, each with its own indices. *)
Fixpoint from_back (es : list (Z * Z * str)) (s : str) : outcome str :=
  match es with
  | [] => Ok s
  | (i, j, t) :: es' => let* r := from_back es' s in rep r i j t
  end.
(** The first edit first: the indices are moved by what the text has grown so far. *)
Fixpoint from_front (es : list (Z * Z * str)) (grown : Z) (s : str) : outcome str :=
  match es with
  | [] => Ok s
  | (i, j, t) :: es' =>
    let* r := rep s (i + grown) (j + grown) t in
    let* n := count t in
    from_front es' (grown + (Z.of_N n - (j - i))) r
  end.
(** The first edit first, with the indices counted from the end of the text, which has
    [n] units: nothing has to be moved. *)
Fixpoint from_end (n : Z) (es : list (Z * Z * str)) (s : str) : outcome str :=
  match es with
  | [] => Ok s
  | (i, j, t) :: es' => let* r := rep s (i - n) (j - n) t in from_end n es' r
  end.
End Orders.

(** Room for the text and everything inserted. *)
Definition room (s : str) (es : list (Z * Z * str)) : Prop :=
  size s + fold_right (fun e n => size (snd e) + n) 0 es < 0x8000000000000000.
(** Every edit replaces something and leaves something behind it. *)
Inductive Proper (n : Z) : list (Z * Z * str) -> Prop :=
| proper_nil : Proper n []
| proper_cons i j t es : (i < j < n)%Z -> Proper n es -> Proper n ((i, j, t) :: es).
(** Edits in ascending order that do not overlap, inserting valid text. *)
Inductive Ascending (n : Z) : Z -> list (Z * Z * str) -> Prop :=
| asc_nil lo : Ascending n lo []
| asc_cons lo i j t ts es : (lo <= i <= j)%Z -> (j <= n)%Z -> Text t ts -> Ascending n j es -> Ascending n lo ((i, j, t) :: es).
