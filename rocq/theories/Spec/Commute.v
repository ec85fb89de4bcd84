(** Functions that convert a text code point by code point, and what it means
    that such a conversion does not disturb a set of separators. *)
From Verif Require Import Base Spec.Category Spec.UnicodeData Spec.Counts Spec.Normalization Model.ConvertCase.

(** What to_lower and to_upper make of one code point. *)
Definition lower_of (c : N) : list N := [simple_lower c].
Definition upper_of (c : N) : list N := if c =? 0xDF then [0x53; 0x53] else [simple_upper c].

Inductive case_conversion : (str -> outcome str) -> (N -> list N) -> Prop :=
| lower_conversion : case_conversion to_lower_str lower_of
| upper_conversion : case_conversion to_upper_str upper_of.

(** Neither changed by a case mapping nor the result of changing another code point. *)
Definition caseless (c : N) : Prop := simple_lower c = c /\ simple_upper c = c /\
  forall d, simple_lower d = c \/ simple_upper d = c -> d = c.

(** [f] turns separators, and only separators, into separators. *)
Definition respects (f : N -> list N) (chars : list N) : Prop := forall c, c <= 0x10FFFF ->
  (In c chars -> exists d, f c = [d] /\ In d chars) /\ (~ In c chars -> Forall (fun d => ~ In d chars) (f c)).

(** [qs] are the results of [F] on [ps], one by one. *)
Definition each (F : str -> outcome str) (ps qs : list str) : Prop := Forall2 (fun p q => F p = Ok q) ps qs.

(** [f] turns marks into marks and everything else into something else, perhaps
    with marks on it. *)
Definition keeps_marks (f : N -> list N) (c : N) : Prop :=
  exists d ds, f c = d :: ds /\ combining d = combining c /\ Forall (fun m => combining m = true) ds.

(** No separator occurs in a canonical decomposition. *)
Definition undecomposed (chars : list N) : Prop :=
  forall c a b, has_pair c a b -> ~ In c chars /\ ~ In a chars /\ ~ In b chars.

(** The three code points whose canonical decompositions have more than one
    element that is no combining mark: U+16D68, U+16D69 and U+16D6A. *)
Definition several (c : N) : Prop := c = 0x16D68 \/ c = 0x16D69 \/ c = 0x16D6A.

(** The pairs of indices for which a substring is the slice it should be (C26, C27). *)
Definition index (i : Z) : Prop := (- 0x8000000000000000 < i <= 0x7FFFFFFFFFFFFFFF)%Z.
Definition char_range (i j : Z) : Prop := index i /\ index j /\ ((0 <= i /\ 0 <= j)%Z \/ (i < j < 0)%Z \/ (i < 0 <= j)%Z).
Definition codepoint_range (i j : Z) : Prop := index i /\ index j /\ ((0 <= i /\ 0 <= j)%Z \/ (i < j < 0)%Z \/ (j < 0 <= i)%Z).

(** [G] and the conversion [F] can be swapped on [s], which [F] turns into [t]. *)
Definition swaps (F G : str -> outcome str) (s t : str) : Prop := exists a b, G s = Ok a /\ G t = Ok b /\ F a = Ok b.

(** Code points whose case mapping and canonical decomposition cannot be swapped:
    U+0130 decomposes to I and a dot but becomes i without; U+212B has no pair
    decomposition but its lower case has. *)
Definition lower_exceptions : list N := [0x130; 0x212B].
(** Letters without upper case whose base letter has one, and letters with an
    iota subscript, which alone (U+0345) becomes a letter in upper case. *)
Definition upper_exceptions : list N :=
  [0x1F0; 0x390; 0x3B0; 0x1E96; 0x1E97; 0x1E98; 0x1E99; 0x1F50; 0x1F52; 0x1F54; 0x1F56;
   0x1F80; 0x1F81; 0x1F82; 0x1F83; 0x1F84; 0x1F85; 0x1F86; 0x1F87; 0x1F88; 0x1F89; 0x1F8A; 0x1F8B; 0x1F8C; 0x1F8D; 0x1F8E; 0x1F8F;
   0x1F90; 0x1F91; 0x1F92; 0x1F93; 0x1F94; 0x1F95; 0x1F96; 0x1F97; 0x1F98; 0x1F99; 0x1F9A; 0x1F9B; 0x1F9C; 0x1F9D; 0x1F9E; 0x1F9F;
   0x1FA0; 0x1FA1; 0x1FA2; 0x1FA3; 0x1FA4; 0x1FA5; 0x1FA6; 0x1FA7; 0x1FA8; 0x1FA9; 0x1FAA; 0x1FAB; 0x1FAC; 0x1FAD; 0x1FAE; 0x1FAF;
   0x1FB2; 0x1FB3; 0x1FB4; 0x1FB6; 0x1FB7; 0x1FBC; 0x1FC2; 0x1FC3; 0x1FC4; 0x1FC6; 0x1FC7; 0x1FCC; 0x1FD2; 0x1FD6; 0x1FD7;
   0x1FE2; 0x1FE4; 0x1FE6; 0x1FE7; 0x1FF2; 0x1FF3; 0x1FF4; 0x1FF6; 0x1FF7; 0x1FFC].
