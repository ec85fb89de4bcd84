(** Model of include/Ystring/CodepointSet.hpp and src/Ystring/Char32Set.cpp. *)
From Verif Require Import Base Model.Decode Model.Encode Model.Subrange Model.Search Model.ConvertCase.

(** CodepointSet.hpp:17-35 *)
Record cpset : Type := CPS { cps_ranges : list (N * N); cps_negated : bool }.

(** CodepointSet.hpp:21-22, default member initialisers *)
Definition cps_empty (negated : bool) : cpset := CPS [] negated.

(** Char32Set.cpp:16-19 *)
Definition add_range (s : cpset) (first last : N) : cpset :=
  CPS (cps_ranges s ++ [(first, last)]) (cps_negated s).

(** Char32Set.cpp:21-27.  [ranges.back()] is the last element;
    [second + 1] is computed in 32 bits. *)
Definition add_codepoint (s : cpset) (cp : N) : cpset :=
  match rev (cps_ranges s) with
  | (first, second) :: before =>
    if add32 second 1 =? cp
    then CPS (rev before ++ [(first, cp)]) (cps_negated s)
    else add_range s cp cp
  | [] => add_range s cp cp
  end.

(** Char32Set.cpp:29-33 *)
Definition add_codepoints (s : cpset) (codepoints : u32str) : cpset :=
  fold_left add_codepoint codepoints s.

(** Char32Set.cpp:35-40 *)
Definition cps_contains (s : cpset) (cp : N) : bool :=
  xorb (existsb (fun r : N * N => (fst r <=? cp) && (cp <=? snd r)) (cps_ranges s)) (cps_negated s).

(** Char32Set.cpp:42-52 *)
Definition cps_ci_contains (s : cpset) (cp : N) : bool :=
  xorb (existsb (fun r : N * N =>
          if fst r =? snd r then case_insensitive_equal cp (fst r)
          else negb (case_insensitive_less cp (fst r)) && negb (case_insensitive_less (snd r) cp))
        (cps_ranges s)) (cps_negated s).

(** Char32Set.cpp:57-63, one range *)
Definition print_range (r : N * N) : str :=
  if fst r =? snd r then from_utf32_char (fst r)
  else from_utf32_char (fst r) ++ [x2d] ++ from_utf32_char (snd r).

(** Char32Set.cpp:54-65 [operator<<]: the bytes written to the stream. *)
Definition print_cpset (s : cpset) : str :=
  (if cps_negated s then [x5b; x5e] else [x5b]) ++ concat (map print_range (cps_ranges s)) ++ [x5d].

(** Char32Set.cpp:72-77 *)
Definition u32_ci_contains (span : u32str) (cp : N) : bool :=
  existsb (fun c => case_insensitive_equal cp c) span.

(** Algorithms.cpp:117-123 [find_first_of(str, CodepointSet, offset)] *)
Definition find_first_of_set (s : str) (chars : cpset) (offset : N) : outcome (subrange * N) :=
  find_first_where s (fun c => cps_contains chars c) offset.

(** Algorithms.cpp:157-164 [find_last_of(str, CodepointSet, offset)] *)
Definition find_last_of_set (s : str) (chars : cpset) (offset : N) : outcome (subrange * N) :=
  find_last_where s (fun c => cps_contains chars c) offset.
