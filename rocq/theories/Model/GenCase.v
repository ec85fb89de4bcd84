(** Model of tools/unicode_character_tables/make_case_convert_file.py, which makes
    src/Ystring/LowerCaseTables.hpp, TitleCaseTables.hpp and UpperCaseTables.hpp.

    The input is the list of (code point, mapped code point) of the lines whose
    field for the wanted case is not empty, the output is the contents of the two
    arrays; GenFiles.v has the reading of the file and the text of the output. *)
From Verif Require Import Base.

(** A dict from numbers to values, as the list of its items in insertion order. *)
(** make_case_convert_file.py:113-118: [chars.get(major)] and the append.  The
    stored lists are never empty. *)
Fixpoint chars_add (chars : list (N * list (N * N))) (major : N) (p : N * N) : list (N * list (N * N)) :=
  match chars with
  | [] => [(major, [p])]
  | (m, l) :: chars' => if m =? major then (m, l ++ [p]) :: chars' else (m, l) :: chars_add chars' major p
  end.
Definition chars_get (chars : list (N * list (N * N))) (major : N) : list (N * N) :=
  match find (fun e => fst e =? major) chars with Some e => snd e | None => [] end.

(** make_case_convert_file.py:24-28, the body of the loop; the counts are never 0. *)
Fixpoint count_diff (diffs : list (Z * N)) (d : Z) : list (Z * N) :=
  match diffs with
  | [] => [(d, 1)]
  | (e, n) :: diffs' => if Z.eqb e d then (e, n + 1) :: diffs' else (e, n) :: count_diff diffs' d
  end.
Definition diff_of (p : N * N) : Z := (Z.of_N (snd p) - Z.of_N (fst p))%Z.
(** make_case_convert_file.py:22-33 *)
Definition get_most_prevalent_diff (values : list (N * N)) : Z * N :=
  let diffs := fold_left (fun diffs p => count_diff diffs (diff_of p)) values [] in
  fold_left (fun (best : Z * N) (e : Z * N) => if snd best <? snd e then e else best) diffs (0%Z, 0).

(** make_case_convert_file.py:36-46; [v >= major], so that [v - major] is exact. *)
Definition make_diff_set (major : N) (diff : Z) (values : list (N * N)) : N * Z * N * N * list (N * N) :=
  let '(bit_set, nbit_set, remainder) :=
    fold_left (fun (st : N * N * list (N * N)) (p : N * N) =>
      let '(bit_set, nbit_set, remainder) := st in
      let '(bit_set, remainder) :=
        if Z.eqb (diff_of p) diff then (N.lor bit_set (N.shiftl 1 (fst p - major)), remainder)
        else (bit_set, remainder ++ [p]) in
      (bit_set, N.lxor nbit_set (N.shiftl 1 (fst p - major)), remainder)) values (0, 0xFFFFFFFF, []) in
  (major, diff, bit_set, nbit_set, remainder).

(** make_case_convert_file.py:79-83: negative differences are written modulo 2^32. *)
Definition diff_number (diff : Z) : N := Z.to_N (if (diff <? 0)%Z then 2 ^ 32 + diff else diff).

(** [sorted] of the keys of a dict. *)
Fixpoint insert_key (k : N) (l : list N) : list N :=
  match l with [] => [k] | x :: l' => if k <=? x then k :: l else x :: insert_key k l' end.
Definition sorted_keys (chars : list (N * list (N * N))) : list N := fold_right insert_key [] (map fst chars).

(** make_case_convert_file.py:106-118 *)
Definition group_chars (rows : list (N * N)) : list (N * list (N * N)) :=
  fold_left (fun chars p => chars_add chars (fst p / 32 * 32) p) rows [].

(** make_case_convert_file.py:121-128, the body of the loop: what it appends to
    [diff_sets] and [mappings]. *)
Definition convert_group (major : N) (values : list (N * N)) : list (N * N * N * N) * list (N * N) :=
  let '(diff, count) := get_most_prevalent_diff values in
  if 2 <? count then
    let '(major, diff, bit_set, nbit_set, remainder) := make_diff_set major diff values in
    ([(major, diff_number diff, bit_set, nbit_set)], remainder)
  else ([], values).

(** make_case_convert_file.py:98-130 [main] *)
Definition make_case_tables (rows : list (N * N)) : list (N * N * N * N) * list (N * N) :=
  let chars := group_chars rows in
  let parts := map (fun major => convert_group major (chars_get chars major)) (sorted_keys chars) in
  (flat_map fst parts, flat_map snd parts).
