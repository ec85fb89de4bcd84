(** The two notions of a valid text. *)
From Verif Require Import Base Spec.Utf8Spec Model.Search.

Inductive validity : (str -> Prop) -> Prop :=
| library_validity : validity (fun s => is_valid_utf8 s = Ok true)   (* the library's own test (C06, C07) *)
| rfc3629_validity : validity rfc3629_valid.                         (* the standard's *)
