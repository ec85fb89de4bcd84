(** Newlines and the default trim set, as documented. *)
From Verif Require Import Base Spec.Utf8Spec.

(** LF, VT, FF, CR, NEXT LINE, LINE SEPARATOR, PARAGRAPH SEPARATOR. *)
Definition newline (c : N) : Prop :=
  c = 0x0A \/ c = 0x0B \/ c = 0x0C \/ c = 0x0D \/ c = 0x85 \/ c = 0x2028 \/ c = 0x2029.

Definition no_newline (cs : list N) : Prop := Forall (fun c => ~ newline c) cs.

(** The string after (before) a CR (LF): the other half of a CR LF, or not. *)
Definition starts_with_codepoint (v : str) (c : N) (rest : str) : Prop :=
  exists g, v = g ++ rest /\ uchar g c.
Definition ends_with_codepoint (v : str) (c : N) (rest : str) : Prop :=
  exists g, v = rest ++ g /\ uchar g c.

(** The bytes of one newline. *)
Definition one_newline (d : str) : Prop :=
  (exists c, uchar d c /\ newline c) \/ exists cr lf, d = cr ++ lf /\ uchar cr 0x0D /\ uchar lf 0x0A.

(** The memory that follows one of the library's character arrays: everything
    up to the next zero, [extra], is read as part of the array.  [line_end extra]
    are the code points a newline search then looks for. *)
Definition followed_by (after extra : list N) : Prop :=
  exists rest, after = extra ++ 0 :: rest /\ Forall (fun c => c <> 0) extra.
Definition line_end (extra : list N) (c : N) : Prop := newline c \/ In c extra.
Definition no_line_ends (extra : list N) (cs : list N) : Prop := Forall (fun c => ~ line_end extra c) cs.
