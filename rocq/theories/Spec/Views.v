(** Which bytes of the caller's text a view refers to. *)
From Verif Require Import Base Model.Subrange Model.Views.

(** The view lies in the array [m]. *)
Definition within (m : str) (v : view) : Prop :=
  match v with Some (o, n) => (o + n <= length m)%nat | None => True end.

(** [w] refers to bytes of [v] only; the default view refers to none. *)
Definition part_of (v w : view) : Prop :=
  match w with
  | None => True
  | Some (o', n') => match v with Some (o, n) => (o <= o')%nat /\ (o' + n' <= o + n)%nat | None => False end
  end.

(** The places of the parts of a text that starts at [o] and is cut into the
    (part, separator) pairs [cuts] and [rest]. *)
Fixpoint places (o : nat) (cuts : list (str * str)) (rest : str) : list view :=
  match cuts with
  | [] => [Some (o, length rest)]
  | (u, g) :: cuts' => Some (o, length u) :: places (o + length u + length g) cuts' rest
  end.

(** All, or those of at least one byte. *)
Definition kept_places (ignore_empty : bool) (l : list view) : list view :=
  if ignore_empty then filter (fun v => match v with Some (_, n) => Nat.ltb 0 n | None => false end) l else l.

(** The view of [s] in an array [pre ++ s ++ post]. *)
Definition view_of (pre s : str) : view := Some (length pre, length s).

(** No view is null, and each ends before (or where) all later ones start. *)
Definition apart (a b : view) : Prop :=
  match a, b with Some (o, n), Some (o', _) => (o + n <= o')%nat | _, _ => False end.
Fixpoint ascending (l : list view) : Prop :=
  match l with
  | [] => True
  | a :: l' => a <> None /\ Forall (apart a) l' /\ ascending l'
  end.

(** [ViewRun finder m o s t a v]: starting on the text [s], which lies at [o] in
    the array [m], after some calls of next() that each found a token, the
    iterator is [t] and the text not yet searched is [v], which starts at [a]. *)
Inductive ViewRun (finder : str -> outcome subrange) (m : str) (o : nat) (s : str)
  : v_token_iterator -> nat -> str -> Prop :=
| view_start : ViewRun finder m o s (vti_init (Some (o, length s))) o s
| view_next t t' a u g v :
    ViewRun finder m o s t a (u ++ g ++ v) ->
    finder (u ++ g ++ v) = Ok (Sub (size u) (size g)) -> g <> [] ->
    vti_next m finder t = Ok (true, t') ->
    ViewRun finder m o s t' (a + length u + length g) v.
