(** C137: case conversion and the predicates on code points. *)
From Verif Require Import Base Spec.Utf8Spec Spec.CaseClasses Model.CharClass Model.ConvertCase Proofs.CaseClassLemmas.

(** Changing the case of a code point changes the answer of no predicate but
    is_upper and is_lower: for to_lower without exception, for the others with one. *)
Theorem C137_predicates : forall c, c < 0x100000000 ->
  Forall (fun p => p (to_lower c) = p c) caseless_predicates /\
  (c <> 0x345 -> Forall (fun p => p (to_upper c) = p c) caseless_predicates /\ Forall (fun p => p (to_title c) = p c) caseless_predicates).
Proof. exact p_c137_predicates. Qed.
Print Assumptions C137_predicates.
(** The exception: a mark becomes a letter. *)
Theorem C137_exception : to_upper 0x345 = 0x399 /\ to_title 0x345 = 0x399 /\ is_mark 0x345 = true /\ is_letter 0x345 = false /\
  is_mark 0x399 = false /\ is_letter 0x399 = true.
Proof. repeat split; vm_compute; reflexivity. Qed.
Print Assumptions C137_exception.
(** Upper case letters are their own upper case, and their lower case, if they have
    one, is lower case; the other way round the result can be a title case letter.
    No conversion gives a new letter of the wrong case. *)
Theorem C137_case : forall c, c < 0x100000000 ->
  (is_upper c = true -> to_upper c = c /\ (to_lower c = c \/ is_lower (to_lower c) = true)) /\
  (is_lower c = true -> to_lower c = c /\ (to_upper c = c \/ is_cased_letter (to_upper c) = true /\ is_lower (to_upper c) = false)) /\
  (is_lower (to_upper c) = true -> to_upper c = c) /\ (is_upper (to_lower c) = true -> to_lower c = c).
Proof. exact p_c137_case. Qed.
Print Assumptions C137_case.
(** The strings that are not changed: those in which no code point is changed, written
    in the shortest form. *)
Theorem C137_unchanged_lower : forall s, to_lower_str s = Ok s <->
  exists cs, Encoded s cs /\ Forall (fun c => c <= 0x10FFFF /\ to_lower c = c) cs.
Proof. exact p_c137_lower_unchanged. Qed.
Print Assumptions C137_unchanged_lower.
Theorem C137_unchanged_upper : forall s, to_upper_str s = Ok s <->
  exists cs, Encoded s cs /\ Forall (fun c => c <= 0x10FFFF /\ to_upper c = c /\ c <> 0xDF) cs.
Proof. exact p_c137_upper_unchanged. Qed.
Print Assumptions C137_unchanged_upper.
(** A converted string has no letters left that could be converted. *)
Theorem C137_all_upper : forall s r, to_upper_str s = Ok r ->
  exists ds, Text r ds /\ Forall (fun d => is_lower d = true -> to_upper d = d /\ d <> 0xDF) ds.
Proof. exact p_c137_no_lower. Qed.
Print Assumptions C137_all_upper.
Theorem C137_all_lower : forall s r, to_lower_str s = Ok r ->
  exists ds, Text r ds /\ Forall (fun d => is_upper d = true -> to_lower d = d) ds.
Proof. exact p_c137_no_upper. Qed.
Print Assumptions C137_all_lower.
(** Letters, marks, numbers and so on stay where they are. *)
Theorem C137_places_lower : forall s cs r, Text s cs -> to_lower_str s = Ok r ->
  exists ds, Text r ds /\ Forall (fun p => map p ds = map p cs) caseless_predicates.
Proof. exact p_c137_lower_positions. Qed.
Print Assumptions C137_places_lower.
Theorem C137_places_upper : forall s cs r, Text s cs -> to_upper_str s = Ok r -> ~ In 0xDF cs -> ~ In 0x345 cs ->
  exists ds, Text r ds /\ Forall (fun p => map p ds = map p cs) caseless_predicates.
Proof. exact p_c137_upper_positions. Qed.
Print Assumptions C137_places_upper.
(** A title case letter, the Roman numeral two, a lower case letter without upper case,
    and the Kelvin sign *)
Example C137_ex : to_upper 0x1C5 = 0x1C4 /\ to_lower 0x1C5 = 0x1C6 /\ is_upper 0x1C5 = false /\ is_lower 0x1C5 = false /\
  to_lower 0x2161 = 0x2171 /\ is_number 0x2161 = true /\ is_number 0x2171 = true /\
  is_lower 0x138 = true /\ to_upper 0x138 = 0x138 /\ to_lower 0x212A = 0x6B /\
  to_upper_str [x41; xc3; x86; x31] = Ok [x41; xc3; x86; x31].
Proof. repeat split; vm_compute; reflexivity. Qed.
