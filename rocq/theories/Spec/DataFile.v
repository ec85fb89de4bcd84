(** The text of a Unicode data file (UnicodeData.txt) and what its lines say. *)
From Coq Require Import String.
From Verif Require Import Base Spec.Category Spec.Escape.
Local Notation "'#' s" := (list_byte_of_string s%string) (at level 5, only parsing).

(** A line has 15 fields with semicolons between them. *)
Fixpoint with_semicolons (fields : list str) : str :=
  match fields with [] => [] | [f] => f | f :: fs => f ++ #";" ++ with_semicolons fs end.
Definition data_line (fields : list str) : Prop :=
  length fields = 15%nat /\ Forall (fun f => ~ In x3b f /\ ~ In x0a f /\ ~ In x0d f) fields.
(** Every line ends with LF or CR LF; the last one may lack its end. *)
Inductive DataText : list (list str) -> str -> Prop :=
| data_empty : DataText [] []
| data_lf fs lines t : data_line fs -> DataText lines t -> DataText (fs :: lines) (with_semicolons fs ++ [x0a] ++ t)
| data_crlf fs lines t : data_line fs -> DataText lines t -> DataText (fs :: lines) (with_semicolons fs ++ [x0d; x0a] ++ t)
| data_last fs : data_line fs -> DataText [fs] (with_semicolons fs).

(** Code points are hexadecimal numbers. *)
Definition code (f : str) (c : N) : Prop := f <> [] /\ Hex f c.
Definition field (fields : list str) (i : nat) (f : str) : Prop := nth_error fields i = Some f.

(** Fields 0 and 2: a code point and its general category. *)
Definition category_name (k : category) : str :=
  match k with
  | Lu => #"Lu" | Ll => #"Ll" | Lt => #"Lt" | Lm => #"Lm" | Lo => #"Lo" | Mn => #"Mn" | Mc => #"Mc" | Me => #"Me"
  | Nd => #"Nd" | Nl => #"Nl" | No => #"No" | Pc => #"Pc" | Pd => #"Pd" | Ps => #"Ps" | Pe => #"Pe" | Pi => #"Pi" | Pf => #"Pf" | Po => #"Po"
  | Sm => #"Sm" | Sc => #"Sc" | Sk => #"Sk" | So => #"So" | Zs => #"Zs" | Zl => #"Zl" | Zp => #"Zp"
  | Cc => #"Cc" | Cf => #"Cf" | Cs => #"Cs" | Co => #"Co" | Cn => #"Cn"
  end.
Definition class_line (fields : list str) (row : N * category) : Prop :=
  exists f, field fields 0 f /\ code f (fst row) /\ field fields 2 (category_name (snd row)).

(** Fields 12, 13 and 14: the simple upper, lower and title case mapping, or nothing. *)
Inductive case_line (i : nat) (fields : list str) : option (N * N) -> Prop :=
| case_none : field fields i [] -> case_line i fields None
| case_some f g c d : field fields 0 f -> code f c -> field fields i g -> code g d -> case_line i fields (Some (c, d)).

(** Field 5: the decomposition.  It is nothing, or has a tag in angle brackets, or
    is a list of code points with blanks between them. *)
Inductive codes : str -> list N -> Prop :=
| codes_one f c : code f c -> codes f [c]
| codes_more f c n g cs : code f c -> codes g cs -> codes (f ++ repeat x20 (S n) ++ g) (c :: cs).
Inductive pair_line (fields : list str) : option (N * (N * N)) -> Prop :=
| pair_none f c : field fields 0 f -> code f c -> field fields 5 [] -> pair_line fields None
| pair_tag f c t : field fields 0 f -> code f c -> field fields 5 (#"<" ++ t) -> pair_line fields None
| pair_other f c g cs : field fields 0 f -> code f c -> field fields 5 g -> codes g cs -> length cs <> 2%nat -> pair_line fields None
| pair_some f c g a b : field fields 0 f -> code f c -> field fields 5 g -> codes g [a; b] -> pair_line fields (Some (c, (a, b))).

(** What the lines say, one after the other. *)
Inductive Says {A} (says : list str -> option A -> Prop) : list (list str) -> list A -> Prop :=
| says_nil : Says says [] []
| says_none l lines rows : says l None -> Says says lines rows -> Says says (l :: lines) rows
| says_some l lines x rows : says l (Some x) -> Says says lines rows -> Says says (l :: lines) (x :: rows).
