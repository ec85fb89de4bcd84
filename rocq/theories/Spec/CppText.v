(** The text of the generated headers and how C++ reads the arrays in it. *)
From Coq Require Import String.
From Verif Require Import Base Spec.Escape.
Local Notation "'#' s" := (list_byte_of_string s%string) (at level 5, only parsing).

Definition blank_text (w : str) : Prop := Forall (fun c => c = x20 \/ c = x0a) w.
(** A hexadecimal literal. *)
Definition literal (s : str) (n : N) : Prop := exists ds, s = #"0x" ++ ds /\ ds <> [] /\ Hex ds n.
(** Items with commas between them, and perhaps one behind the last. *)
Inductive Items {A} (item : str -> A -> Prop) : str -> list A -> Prop :=
| items_nil w : blank_text w -> Items item w []
| items_last w s x w' : blank_text w -> item s x -> blank_text w' -> Items item (w ++ s ++ w') [x]
| items_more w s x w' t l : blank_text w -> item s x -> blank_text w' -> Items item t l -> Items item (w ++ s ++ w' ++ #"," ++ t) (x :: l).
(** A list of literals in braces. *)
Definition braced (s : str) (l : list N) : Prop := exists t, s = #"{" ++ t ++ #"}" /\ Items literal t l.
Definition braced4 (s : str) (x : N * N * N * N) : Prop := let '(a, b, c, d) := x in braced s [a; b; c; d].
Definition braced2 (s : str) (x : N * N) : Prop := braced s [fst x; snd x].

(** Dates: digits and hyphens. *)
Definition date_text (s : str) : Prop := s <> [] /\ Forall (fun c => 0x30 <= u8 c <= 0x39 \/ c = x2d) s.

Definition file_text (lines : list str) : str := concat (map (fun l => l ++ [x0a]) lines).
Definition header_top (year date : str) : str := file_text
  [#"//****************************************************************************";
   #"// Copyright © " ++ year ++ #" Jan Erik Breimo. All rights reserved.";
   #"// Created by Jan Erik Breimo on " ++ date;
   #"//";
   #"// This file is distributed under the Zero-Clause BSD License.";
   #"// License text is included with the source distribution.";
   #"//****************************************************************************"].
(** A definition of an array; [body] is the text between the braces. *)
Definition array (type name body : str) : str :=
  file_text [#"    constexpr " ++ type ++ #" " ++ name ++ #"[] ="; #"    {"] ++ body ++ file_text [#"    };"].
(** src/Ystring/CharClassTables.hpp *)
Definition class_header (year date ascii complete : str) : str :=
  header_top year date ++ file_text [#"#include <cstdint>"; []; #"namespace ystring"; #"{"] ++
  array #"uint8_t" #"ASCII_CHAR_CLASSES" ascii ++ file_text [[]] ++ array #"uint32_t" #"COMPLETE_CHAR_CLASSES" complete ++ file_text [#"}"; []].
(** src/Ystring/UpperCaseTables.hpp and its siblings *)
Definition case_header (name year date compact mappings : str) : str :=
  header_top year (date ++ #".") ++ file_text [#"#pragma once"; []; #"#include ""CharMappingTypes.hpp"""; []; #"namespace ystring"; #"{"] ++
  array #"CompactCharMapping" (#"COMPACT_" ++ name ++ #"_CASE") compact ++ file_text [[]] ++
  array #"CharMapping" (name ++ #"_CASE") mappings ++ file_text [#"}"; []].
(** src/Ystring/NormalizationTables.hpp *)
Definition norm_header (year date decomposed composed : str) : str :=
  header_top year date ++ file_text [#"#include <cstdint>"; []; #"namespace ystring"; #"{"] ++
  array #"uint64_t" #"TO_DECOMPOSED" decomposed ++ file_text [[]] ++ array #"uint64_t" #"TO_COMPOSED" composed ++ file_text [#"}"; []].
