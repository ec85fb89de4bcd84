(** Model of tools/unicode_character_tables/make_char_class_file.py, which makes
    src/Ystring/CharClassTables.hpp.

    The input is the list of (code point, general category) of the lines of the
    data file, the output is the list of the numbers in the two arrays; GenFiles.v
    has the reading of the file and the text of the output.  [None] stands for a Python
    exception (IndexError or KeyError). *)
From Verif Require Import Base Spec.Category Model.CharClass.

(** make_char_class_file.py:54-85 [Classes] *)
Definition Classes (k : category) : N :=
  match k with
  | Lu => 1 | Ll => 2 | Lt => 3 | Lm => 4 | Lo => 5
  | Mn => 6 | Mc => 7 | Me => 8
  | Nd => 9 | Nl => 10 | No => 11
  | Pc => 12 | Pd => 13 | Ps => 14 | Pe => 15 | Pi => 16 | Pf => 17 | Po => 18
  | Sm => 19 | Sc => 20 | Sk => 21 | So => 22
  | Zs => 23 | Zl => 24 | Zp => 25
  | Cc => 26 | Cf => 27 | Cs => 28 | Co => 29 | Cn => 30
  end.

(** make_char_class_file.py:130-131 [KnownRanges] *)
Definition KnownRanges : list N :=
  [0x4DB5; 0x9FCC; 0xD7A3; 0xDB7F; 0xDBFF; 0xDFFF; 0xF8FF; 0x2A6D6; 0x2B734; 0x2B81D; 0xFFFFD; 0x10FFFD].

(** The strings used as classes of ranges: a category "Lu", two categories
    "CnLu", an alternating range "XLu", and any other string. *)
Inductive label : Type := One (k : category) | Two (k l : category) | Alt (k : category) | Other.
Definition range : Type := N * N * label.

Definition category_eqb (a b : category) : bool := Classes a =? Classes b.

(** make_char_class_file.py:169-190 [get_class_ranges].  [ranges] has the newest
    range first; [next] is [range_end + 1], which avoids the initial -1.  The
    code points are in increasing order, so [char_id - 1] is not negative where
    it is used. *)
Fixpoint get_class_ranges_loop (rows : list (N * category)) (ranges : list range)
    (range_class : option category) (range_start next : N) : list range :=
  let flush := match range_class with Some k => (range_start, next - 1, One k) :: ranges | None => ranges end in
  match rows with
  | [] => flush
  | (char_id, char_class) :: rows' =>
    if ((char_id =? next) || existsb (N.eqb char_id) KnownRanges)
       && (match range_class with Some k => category_eqb char_class k | None => false end)
    then get_class_ranges_loop rows' ranges range_class range_start (char_id + 1)
    else
      let ranges := if char_id =? next then flush else (next, char_id - 1, One Cn) :: flush in
      get_class_ranges_loop rows' ranges (Some char_class) char_id (char_id + 1)
  end.
Definition get_class_ranges (rows : list (N * category)) : list range :=
  rev (get_class_ranges_loop rows [] None 0 0).

Definition is_one (k : category) (l : label) : bool :=
  match l with One j => category_eqb j k | _ => false end.
Definition is_alt (k : category) (l : label) : bool :=
  match l with Alt j => category_eqb j k | _ => false end.

(** make_char_class_file.py:193-208 [optimize_alternating_case]: the body of the
    loop; [new_ranges] has the newest range first. *)
Definition alternate (new_ranges : list range) (r : range) : list range :=
  let '(r0, r1, r2) := r in
  match new_ranges with
  | [] => [r]
  | (q0, q1, q2) :: before =>
    if (r0 =? r1) && is_one Lu r2 then
      if (q1 + 1 =? r0) && (is_alt Ll q2 || (is_one Ll q2 && (q0 =? q1)))
      then (q0, r1, Alt Lu) :: before else r :: new_ranges
    else if (r0 =? r1) && is_one Ll r2 then
      if (q1 + 1 =? r0) && (is_alt Lu q2 || (is_one Lu q2 && (q0 =? q1)))
      then (q0, r1, Alt Ll) :: before else r :: new_ranges
    else r :: new_ranges
  end.
(** [ranges[0]] of an empty list is an IndexError. *)
Definition optimize_alternating_case (ranges : list range) : option (list range) :=
  match ranges with [] => None | r :: rs => Some (rev (fold_left alternate rs [r])) end.

(** make_char_class_file.py:211-219 [optimize_unassigned].  "XLl" and "XLu" have
    length three, so [len(q[2]) == 2] decides. *)
Definition unassigned (new_ranges : list range) (r : range) : list range :=
  let '(r0, r1, r2) := r in
  match new_ranges with
  | [] => [r]
  | (q0, q1, q2) :: before =>
    match q2 with
    | One k => if r0 =? r1 then (q0, r1, match r2 with One l => Two k l | _ => Other end) :: before else r :: new_ranges
    | _ => r :: new_ranges
    end
  end.
Definition optimize_unassigned (ranges : list range) : option (list range) :=
  match ranges with [] => None | r :: rs => Some (rev (fold_left unassigned rs [r])) end.

(** make_char_class_file.py:159-166 [encode_value] *)
Definition encode_value (index : N) (cls : label) : option N :=
  match cls with
  | One k => Some (N.shiftl index 11 + Classes k)
  | Two k l => Some (N.shiftl index 11 + N.lor (N.shiftl (Classes k) 5) (Classes l))
  | Alt k => Some (N.shiftl index 11 + N.lor 0x400 (Classes k))
  | Other => None
  end.
Fixpoint encode_all (ranges : list range) : option (list N) :=
  match ranges with
  | [] => Some []
  | (_, hi, l) :: rs =>
    match encode_value hi l, encode_all rs with Some v, Some vs => Some (v :: vs) | _, _ => None end
  end.

(** make_char_class_file.py:222-231 [make_table_rows]: [n] numbers per row, the
    last row has [len(ranges) % n or n].  [k] counts the full rows. *)
Definition slice_of {A} (l : list A) (i j : nat) : list A := firstn (j - i) (skipn i l).
Definition make_rows {A} (n : nat) (l : list A) : list (list A) :=
  let remainder := match Nat.modulo (length l) n with O => n | r => r end in
  map (fun k => slice_of l (k * n) (k * n + n)) (seq 0 ((length l - remainder) / n))
    ++ [skipn (length l - remainder) l].

(** make_char_class_file.py:260-271 [main] *)
Definition make_char_classes (rows : list (N * category)) : option (list N) :=
  match optimize_alternating_case (get_class_ranges rows) with
  | None => None
  | Some ranges =>
    match optimize_unassigned ranges with
    | None => None
    | Some ranges =>
      match encode_all ranges with
      | None => None
      | Some values => Some (concat (make_rows 5 values))
      end
    end
  end.

(** make_char_class_file.py:234-248 [get_ascii_table] *)
Fixpoint get_ascii_table (rows : list (N * category)) : list N :=
  match rows with
  | [] => []
  | (char_id, char_class) :: rows' =>
    if 128 <=? char_id then [] else (Classes char_class - 1) :: get_ascii_table rows'
  end.

(** CharClass.cpp:61-73 [get_char_class] with the two arrays as parameters. *)
Definition get_char_class_in (ascii complete : list N) (code_point : N) : outcome N :=
  if code_point <? 128 then
    let* c := deref ascii (N.to_nat code_point) in one_shl c
  else
    let key := shl32 code_point CODE_POINT_SHIFT in
    match lower_bound (fun e => e <? key) complete with
    | None => Ok UNASSIGNED
    | Some e => one_shl (decode_char_class code_point e)
    end.
