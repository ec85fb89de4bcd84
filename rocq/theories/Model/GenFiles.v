(** Model of the three scripts in tools/unicode_character_tables from the text of
    the data file to the text of the header: what GenClass.v, GenCase.v and
    GenNorm.v leave out.  The date is a parameter.  [None] stands for a Python
    exception. *)
From Coq Require Import String.
From Verif Require Import Base Spec.Category Model.PyText Model.Codegen Model.GenClass Model.GenCase Model.GenNorm.
Local Notation "'#' s" := (list_byte_of_string s%string) (at level 5, only parsing).

(** ** Reading the lines *)

Fixpoint collect {A B} (f : A -> option B) (l : list A) : option (list B) :=
  match l with
  | [] => Some []
  | x :: l' => match f x, collect f l' with Some y, Some ys => Some (y :: ys) | _, _ => None end
  end.
Fixpoint present {A} (l : list (option A)) : list A :=
  match l with [] => [] | Some x :: l' => x :: present l' | None :: l' => present l' end.

(** The keys of [Classes], make_char_class_file.py:54-85 *)
Definition class_names : list (str * category) :=
  [(#"Lu", Lu); (#"Ll", Ll); (#"Lt", Lt); (#"Lm", Lm); (#"Lo", Lo); (#"Mn", Mn); (#"Mc", Mc); (#"Me", Me);
   (#"Nd", Nd); (#"Nl", Nl); (#"No", No); (#"Pc", Pc); (#"Pd", Pd); (#"Ps", Ps); (#"Pe", Pe); (#"Pi", Pi); (#"Pf", Pf); (#"Po", Po);
   (#"Sm", Sm); (#"Sc", Sc); (#"Sk", Sk); (#"So", So); (#"Zs", Zs); (#"Zl", Zl); (#"Zp", Zp);
   (#"Cc", Cc); (#"Cf", Cf); (#"Cs", Cs); (#"Co", Co); (#"Cn", Cn)].
Definition class_of_name (s : str) : option category :=
  match find (fun e => str_eqb (fst e) s) class_names with Some e => Some (snd e) | None => None end.

(** make_char_class_file.py:174-177 and 237-240: the code point and the class of a
    line.  Simplified: any other class is an error here, while the script lets it
    pass until it looks it up in [Classes]. *)
Definition class_row (line : str) : option (N * category) :=
  let parts := py_split x3b line in
  match py_nth parts 2, py_nth parts 0 with
  | Some k, Some id =>
    match class_of_name k, py_int16 id with Some k, Some c => Some (c, k) | _, _ => None end
  | _, _ => None
  end.
Definition class_rows (file : str) : option (list (N * category)) := collect class_row (py_lines file).

(** make_case_convert_file.py:107-112; [index] is 3, 2 or 1 for the fields -3, -2
    and -1.  [Some None]: the line has no mapping. *)
Definition case_row (index : nat) (line : str) : option (option (N * N)) :=
  let parts := py_split x3b line in
  match py_nth_back parts index with
  | None => None
  | Some field =>
    match py_strip field with
    | [] => Some None
    | t =>
      (* int(parts[0], 16) of the unchanged field 0 unless it is the same field *)
      match py_nth parts 0, py_int16 t with
      | Some id, Some alt_ch => match py_int16 id with Some ch => Some (Some (ch, alt_ch)) | None => None end
      | _, _ => None
      end
    end
  end.
Definition case_rows (index : nat) (file : str) : option (list (N * N)) :=
  match collect (case_row index) (py_lines file) with None => None | Some l => Some (present l) end.

(** make_normalization_file.py:40-54 [get_rules] *)
Definition rule_row (line : str) : option (option rule) :=
  match py_strip line with
  | [] => Some None
  | t =>
    let parts := py_split x3b t in
    match py_nth parts 0 with
    | None => None
    | Some id =>
      match py_int16 id, py_nth parts 5 with
      | Some c, Some [] => Some None
      | Some c, Some ((d :: _) as field) =>
        if byte_eqb d x3c then Some None
        else match collect py_int16 (py_words field) with
             | None => None
             | Some [a; b] => Some (Some (c, (a, b)))
             | Some _ => Some None
             end
      | _, _ => None
      end
    end
  end.
Definition get_rules (file : str) : option (list rule) :=
  match collect rule_row (py_lines file) with None => None | Some l => Some (present l) end.

(** ** Writing the rows *)

(** make_char_class_file.py:222-231, make_normalization_file.py:65-74 and 80-87:
    [n] numbers in a row, with a comma at its end unless it is the last *)
Definition number_row (w : nat) (l : list N) : str := py_join #", " (map (py_format_hex w) l).
Definition table_rows (n w : nat) (values : list N) : list str :=
  let rows := map (number_row w) (make_rows n values) in
  map (fun r => r ++ #",") (removelast rows) ++ [last rows []].

(** make_char_class_file.py:234-248 [get_ascii_table]: a row is written when the
    ninth number comes *)
Fixpoint ascii_rows_loop (values : list N) (output_line : list str) : list str :=
  match values with
  | [] => [py_join #", " output_line]
  | v :: vs =>
    if (length output_line =? 8)%nat
    then (py_join #", " output_line ++ #",") :: ascii_rows_loop vs [py_format_hex 2 v]
    else ascii_rows_loop vs (output_line ++ [py_format_hex 2 v])
  end.

(** make_case_convert_file.py:76-88 *)
Definition compact_row (m : N * N * N * N) : str :=
  let '(major, diff, bit_set, nbit_set) := m in
  #"{" ++ py_format_hex 6 major ++ #", " ++ py_format_hex 8 diff ++ #", " ++ py_format_hex 8 bit_set ++ #", "
  ++ py_format_hex 8 nbit_set ++ #"},".
Definition mapping_row (m : N * N) : str :=
  #"{" ++ py_format_hex 6 (fst m) ++ #", " ++ py_format_hex 6 (snd m) ++ #"},".

(** ** The files.  [print] adds a line feed. *)
Definition printed (text : option str) : option str := match text with None => None | Some t => Some (t ++ [x0a]) end.

(** make_char_class_file.py:134-156 *)
Definition class_template : str := #"//****************************************************************************
// Copyright © [[[year]]] Jan Erik Breimo. All rights reserved.
// Created by Jan Erik Breimo on [[[date]]]
//
// This file is distributed under the Zero-Clause BSD License.
// License text is included with the source distribution.
//****************************************************************************
#include <cstdint>

namespace ystring
{
    constexpr uint8_t ASCII_CHAR_CLASSES[] =
    {
        [[[asciiClasses]]]
    };

    constexpr uint32_t COMPLETE_CHAR_CLASSES[] =
    {
        [[[allClasses]]]
    };
}
".
(** make_char_class_file.py:251-271 *)
Definition make_class_file (year date file : str) : option str :=
  match class_rows file with
  | None => None
  | Some rows =>
    match make_char_classes rows with
    | None => None
    | Some values =>
      printed (make_text class_template
        [(#"year", VOther year); (#"date", VStr date);
         (#"asciiClasses", VList (ascii_rows_loop (get_ascii_table rows) [])); (#"allClasses", VList (table_rows 5 8 values))])
    end
  end.

(** make_case_convert_file.py:49-73 *)
Definition case_template : str := #"//****************************************************************************
// Copyright © [[[year]]] Jan Erik Breimo. All rights reserved.
// Created by Jan Erik Breimo on [[[date]]].
//
// This file is distributed under the Zero-Clause BSD License.
// License text is included with the source distribution.
//****************************************************************************
#pragma once

#include ""CharMappingTypes.hpp""

namespace ystring
{
    constexpr CompactCharMapping COMPACT_[[[name]]]_CASE[] =
    {
        [[[compact_mappings]]]
    };

    constexpr CharMapping [[[name]]]_CASE[] =
    {
        [[[mappings]]]
    };
}
".
(** make_case_convert_file.py:15-19 [AlternativeIndexes] (of the capitalised name,
    which is written in upper case) *)
Definition alternative_index (name : str) : option nat :=
  if str_eqb name #"UPPER" then Some 3%nat else if str_eqb name #"LOWER" then Some 2%nat else if str_eqb name #"TITLE" then Some 1%nat else None.
(** make_case_convert_file.py:76-130; [name] is the argument in upper case *)
Definition make_case_file (name year date file : str) : option str :=
  match alternative_index name with
  | None => None
  | Some index =>
    match case_rows index file with
    | None => None
    | Some rows =>
      let (diff_sets, mappings) := make_case_tables rows in
      printed (make_text case_template
        [(#"year", VOther year); (#"date", VStr date); (#"name", VStr name);
         (#"compact_mappings", VList (map compact_row diff_sets)); (#"mappings", VList (map mapping_row mappings))])
    end
  end.

(** make_normalization_file.py:15-37 *)
Definition norm_template : str := #"//****************************************************************************
// Copyright © [[[year]]] Jan Erik Breimo. All rights reserved.
// Created by Jan Erik Breimo on [[[date]]]
//
// This file is distributed under the Zero-Clause BSD License.
// License text is included with the source distribution.
//****************************************************************************
#include <cstdint>

namespace ystring
{
    constexpr uint64_t TO_DECOMPOSED[] =
    {
        [[[to_normalized]]]
    };

    constexpr uint64_t TO_COMPOSED[] =
    {
        [[[to_denormalized]]]
    };
}
".
(** make_normalization_file.py:90-96 and 118-126 *)
Definition make_norm_file (year date file : str) : option str :=
  match get_rules file with
  | None => None
  | Some rules =>
    printed (make_text norm_template
      [(#"year", VOther year); (#"date", VStr date);
       (#"to_normalized", VList (table_rows 3 16 (map encode_decomposed rules)));
       (#"to_denormalized", VList (table_rows 3 16 (map encode_composed (sorted_rules rules))))])
  end.
