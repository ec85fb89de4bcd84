(** The messages of exceptions. *)
From Coq Require Import String.
From Verif Require Import Base Spec.Utf8Spec Spec.Escape Spec.Print.

Local Notation "'#' s" := (list_byte_of_string s%string) (at level 5, only parsing).

(** [Located file msg text]: the message is the file, a line number and the text,
    with colons between. *)
Definition Located (file msg text : str) : Prop :=
  exists line ds, Decimal ds line /\ msg = file ++ #":" ++ ds ++ #": " ++ text.

(** What is said about a bad escape sequence [w] at byte offset [pos]. *)
Inductive EscapeComplaint (pos : N) : str -> str -> Prop :=
| complaint_end ds : Decimal ds pos -> EscapeComplaint pos [x5c] (#"Incomplete escape sequence at offset " ++ ds)
| complaint_bad w ds : BadEscape w -> w <> [x5c] -> Decimal ds pos ->
    EscapeComplaint pos w (#"Invalid escape sequence at offset " ++ ds).

(** What is said about too few digits: [want] needed, [have] there. *)
Definition few_digits (want have : N) (text : str) : Prop :=
  exists d1 d2, Decimal d1 want /\ Decimal d2 have /\
    text = #"Too few hex digits in escape sequence. Expected at least " ++ d1 ++ #", got " ++ d2.

(** What is said, when reading one character at a time, about a text that starts
    with no character. *)
Inductive NextComplaint : str -> str -> Prop :=
| nextc_end : NextComplaint [x5c] #"Incomplete escape sequence."
| nextc_x x r text : x = x78 \/ x = x58 -> stops hex_digit r -> few_digits 1 0 text -> NextComplaint (x5c :: x :: r) text
| nextc_u ds v r text : Hex ds v -> (length ds < 4)%nat -> stops hex_digit r -> few_digits 4 (size ds) text ->
    NextComplaint ((x5c :: x75 :: ds) ++ r) text
| nextc_U ds v r text : Hex ds v -> (length ds < 8)%nat -> stops hex_digit r -> few_digits 8 (size ds) text ->
    NextComplaint ((x5c :: x55 :: ds) ++ r) text
| nextc_pair ds1 hi ds2 w r text : Hex ds1 hi -> length ds1 = 4%nat -> high_surrogate hi ->
    Hex ds2 w -> (length ds2 < 4)%nat -> stops hex_digit r -> (4 <= length (ds2 ++ r))%nat -> few_digits 4 (size ds2) text ->
    NextComplaint ((x5c :: x75 :: ds1) ++ (x5c :: x75 :: ds2) ++ r) text
| nextc_plain r : Malformed r -> NextComplaint r #"Invalid UTF-8 string."
| nextc_self r : Malformed r -> NextComplaint (x5c :: r) #"Invalid UTF-8 string.".
