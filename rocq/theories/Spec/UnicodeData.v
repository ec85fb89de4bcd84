(** What data/unicode/UnicodeData16.0.0.txt says about a code point. *)
From Verif Require Import Base Spec.Category Tables.UnicodeDataTables.

(** General category: that of the range the code point is in, Cn when it is in none. *)
Definition category_of (c : N) : category :=
  match find (fun r : N * N * category => let '(lo, hi, _) := r in (lo <=? c) && (c <=? hi)) UD_CATEGORIES with
  | Some (_, _, cat) => cat
  | None => Cn
  end.

(** Simple case mappings: the listed one, or the code point itself. *)
Definition mapped (table : list (N * N)) (c : N) : N :=
  match find (fun p => fst p =? c) table with Some p => snd p | None => c end.
Definition simple_upper (c : N) : N := mapped UD_UPPER c.
Definition simple_lower (c : N) : N := mapped UD_LOWER c.
Definition simple_title (c : N) : N := mapped UD_TITLE c.

(** CharClass.hpp numbers the categories in this order. *)
Definition category_number (k : category) : N :=
  match k with
  | Lu => 0 | Ll => 1 | Lt => 2 | Lm => 3 | Lo => 4
  | Mn => 5 | Mc => 6 | Me => 7
  | Nd => 8 | Nl => 9 | No => 10
  | Pc => 11 | Pd => 12 | Ps => 13 | Pe => 14 | Pi => 15 | Pf => 16 | Po => 17
  | Sm => 18 | Sc => 19 | Sk => 20 | So => 21
  | Zs => 22 | Zl => 23 | Zp => 24
  | Cc => 25 | Cf => 26 | Cs => 27 | Co => 28 | Cn => 29
  end.

(** The inner code points of the ideograph ranges that UnicodeData gives only as
    First/Last pairs. *)
Definition ideograph_gaps : list (N * N) := [
  (0x3401, 0x4DBE); (0x4E01, 0x9FFE); (0x17001, 0x187F6); (0x18D01, 0x18D07);
  (0x20001, 0x2A6DE); (0x2A701, 0x2B738); (0x2B821, 0x2CEA0); (0x2CEB1, 0x2EBDF);
  (0x2EBF1, 0x2EE5C); (0x30001, 0x31349); (0x31351, 0x323AE)].
Definition in_ideograph_gap (c : N) : bool :=
  existsb (fun r : N * N => (fst r <=? c) && (c <=? snd r)) ideograph_gaps.
