(** Texts in quotation marks inside other texts. *)
From Verif Require Import Base Spec.Utf8Spec Model.Subrange Model.Escape Model.Unescape.

(** [Literal s e t]: read from behind an opening quotation mark, [s] consists of [e], the
    closing quotation mark, and [t].  A backslash protects the byte behind it. *)
Inductive Literal : str -> str -> str -> Prop :=
| lit_end t : Literal (x22 :: t) [] t
| lit_protected c s e t : Literal s e t -> Literal (x5c :: c :: s) (x5c :: c :: e) t
| lit_plain c s e t : c <> x22 -> c <> x5c -> Literal s e t -> Literal (c :: s) (c :: e) t.

(** [Document s ls es]: reading [s] finds the plain texts [ls] with the literals [es] between them. *)
Inductive Document : str -> list str -> list str -> Prop :=
| doc_plain l : ~ In x22 l -> Document l [l] []
| doc_literal l s e t ls es : ~ In x22 l -> Literal s e t -> Document t ls es -> Document (l ++ x22 :: s) (l :: ls) (e :: es).

(** What is written: plain texts with quoted ones between them. *)
Definition quote (e : str) : str := x22 :: e ++ [x22].
Fixpoint document (l : str) (fields : list (str * str)) : str :=
  match fields with [] => l | (e, l') :: fields' => l ++ quote e ++ document l' fields' end.

(** Looking for the closing quotation mark with the library's own functions: from [o], go
    to the next byte that must be escaped; if it is a backslash, go on behind its escape sequence. *)
Inductive Walk (s : str) : N -> N -> Prop :=
| walk_quote o p : find_first_escapable_char s o = Ok (Sub p 1) -> nth_error s (N.to_nat p) = Some x22 -> Walk s o p
| walk_escape o p n q : find_first_escapable_char s o = Ok (Sub p 1) -> nth_error s (N.to_nat p) = Some x5c ->
    find_first_escaped_char s p = Ok (Sub p n) -> Walk s (p + n) q -> Walk s o q.
