(** What was added to a set of code points. *)
From Verif Require Import Base Model.CodepointSet.

(** The calls that add something. *)
Inductive addition : Type :=
| AddRange (first last : N)
| AddCodepoint (c : N)
| AddCodepoints (cs : list N).

(** Which code points a call adds. *)
Definition adds (a : addition) (c : N) : Prop :=
  match a with
  | AddRange first last => first <= c <= last
  | AddCodepoint d => c = d
  | AddCodepoints cs => In c cs
  end.

(** The call itself. *)
Definition perform (s : cpset) (a : addition) : cpset :=
  match a with
  | AddRange first last => add_range s first last
  | AddCodepoint d => add_codepoint s d
  | AddCodepoints cs => add_codepoints s cs
  end.

(** The ranges and code points added, one after the other; [true] marks a code
    point added on its own. *)
Definition steps (l : list addition) : list (N * N * bool) :=
  flat_map (fun a => match a with
    | AddRange first last => [(first, last, false)]
    | AddCodepoint d => [(d, d, true)]
    | AddCodepoints cs => map (fun d => (d, d, true)) cs
    end) l.

Definition values32 (l : list addition) : Prop :=
  Forall (fun p : N * N * bool => fst (fst p) < 0x100000000 /\ snd (fst p) < 0x100000000) (steps l).

(** No reversed range (more than by one) is directly followed by the code point
    after its end, and the largest 32-bit value not directly by 0. *)
Definition harmless (l : list addition) : Prop := forall u x y one d v,
  steps l = u ++ (x, y, one) :: (d, d, true) :: v ->
  ~ (y + 1 < x /\ d = y + 1) /\ ~ (y = 0xFFFFFFFF /\ d = 0).
