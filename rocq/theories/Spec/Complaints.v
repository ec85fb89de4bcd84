(** Functions with and without the messages of their exceptions. *)
From Coq Require Import String.
From Verif Require Import Base Model.Messages Spec.Messages.

Local Notation "'#' s" := (list_byte_of_string s%string) (at level 5, only parsing).

(** [tells P m o]: without its messages [m] is [o], and where [o] is a
    YstringException the message in [m] satisfies [P]. *)
Definition tells {A} (P : str -> Prop) (m : mout A) (o : outcome A) : Prop :=
  erase m = o /\ (o = Throw YstringException -> exists msg, m = MWhat msg /\ P msg).

(** The message that says that a text is not valid UTF-8; [file] is the name of
    the source file it begins with. *)
Definition invalid_utf8 (file : str) (msg : str) : Prop := Located file msg #"Invalid UTF-8 string.".
