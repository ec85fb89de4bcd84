(** Texts reversed. *)
From Verif Require Import Base Spec.Utf8Spec Spec.Strings Model.CharClass Model.Chars.

(** Valid text in which every code point is a character of its own. *)
Definition unmarked (s : str) : Prop := exists cs, Text s cs /\ Forall (fun c => is_mark c = false) cs.
(** [s'] is [s] reversed by the library, for such a text. *)
Definition mirrored (s s' : str) : Prop := unmarked s /\ Fits s /\ reverse s = Ok s'.
