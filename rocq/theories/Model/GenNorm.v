(** Model of tools/unicode_character_tables/make_normalization_file.py, which makes
    src/Ystring/NormalizationTables.hpp.

    The input is the list of rules that [get_rules] (lines 40-54) returns: a code
    point and the two code points of its canonical decomposition, for the lines
    that have a decomposition of two code points without a tag.  The output is the
    contents of the two arrays; GenFiles.v has the reading of the file and the
    text of the output. *)
From Verif Require Import Base Model.Normalize Model.GenClass.

Definition rule : Type := N * (N * N).

(** make_normalization_file.py:57-58 *)
Definition encode_decomposed (r : rule) : N :=
  N.lor (N.lor (N.shiftl (fst r) 40) (N.shiftl (fst (snd r)) 20)) (snd (snd r)).
(** make_normalization_file.py:61-62 *)
Definition encode_composed (r : rule) : N :=
  N.lor (N.lor (N.shiftl (fst (snd r)) 40) (N.shiftl (snd (snd r)) 20)) (fst r).

(** make_normalization_file.py:65-74 *)
Definition make_decomposed_table_rows (rules : list rule) : list N :=
  concat (make_rows 3 (map encode_decomposed rules)).

(** The comparison of tuples that [sorted] uses (line 78), and a stable sort. *)
Definition pair_le (p q : N * N) : bool := (fst p <? fst q) || ((fst p =? fst q) && (snd p <=? snd q)).
Fixpoint insert_rule (r : rule) (l : list rule) : list rule :=
  match l with [] => [r] | x :: l' => if pair_le (snd r) (snd x) then r :: l else x :: insert_rule r l' end.
Definition sorted_rules (rules : list rule) : list rule := fold_right insert_rule [] rules.

(** make_normalization_file.py:77-87 *)
Definition make_composed_table_rows (rules : list rule) : list N :=
  concat (make_rows 3 (map encode_composed (sorted_rules rules))).

(** Normalize.cpp:20-31 with the array as a parameter. *)
Definition find_decomposed_in (table : list N) (ch : N) : N * N :=
  if ch <? 0xC0 then (ch, 0)
  else
    match lower_bound (fun e => e <? shl64 ch 40) table with
    | None => (ch, 0)
    | Some e =>
      if negb (N.shiftr e 40 mod W32 =? ch) then (ch, 0)
      else (N.land (N.shiftr e 20) 0xFFFFF, N.land e 0xFFFFF)
    end.

(** Normalize.cpp:33-44 with the array as a parameter. *)
Definition find_composed_in (adjacent : bool) (table : list N) (ch mark : N) : outcome N :=
  if mark <? 0x300 then Ok 0
  else
    let key := N.lor (shl64 ch 20) mark in
    let less := fun e => e <? shl64 key 20 in
    match lower_bound less table with
    | None => UB
    | Some e =>
      if (adjacent && lower_bound_is_begin less table)
         || negb (N.shiftr e 20 mod W32 =? key)
      then Ok 0
      else Ok (N.land e 0xFFFFF)
    end.
