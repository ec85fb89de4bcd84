(** C119: the whole headers *)
From Coq Require Import String.
From Verif Require Import Base Spec.Category Spec.Escape Spec.Template Spec.CppText Spec.DataFile Spec.TableRows Spec.UnicodeData
  Model.PyText Model.Codegen Model.GenFiles Model.GenClass Model.GenCase Model.GenNorm Model.CharClass Model.ConvertCase
  Tables.HeaderTexts Tables.UnicodeRows Tables.UnicodeDataTables Tables.CharClassTables Tables.CaseTables Tables.NormalizationTables
  Proofs.CodegenLemmas Proofs.DataFileLemmas Proofs.HeaderLemmas Proofs.GenClassLemmas Proofs.GenCaseLemmas Proofs.GenNormLemmas Proofs.GenProps.
From Coq Require Import ZifyBool ZifyNat ZifyN.
Local Notation "'#' s" := (list_byte_of_string s%string) (at level 5, only parsing).

Definition plain_line (s : str) : tline := ([], s).
Definition top_tlines (dot : str) : list tline :=
  [plain_line #"//****************************************************************************";
   ([(#"// Copyright © ", #"year")], #" Jan Erik Breimo. All rights reserved.");
   ([(#"// Created by Jan Erik Breimo on ", #"date")], dot);
   plain_line #"//";
   plain_line #"// This file is distributed under the Zero-Clause BSD License.";
   plain_line #"// License text is included with the source distribution.";
   plain_line #"//****************************************************************************"].
Definition list_line (k : str) : tline := ([(repeat x20 8, k)], []).
Definition class_tlines : list tline :=
  top_tlines [] ++ map plain_line [#"#include <cstdint>"; []; #"namespace ystring"; #"{"; #"    constexpr uint8_t ASCII_CHAR_CLASSES[] ="; #"    {"] ++
  [list_line #"asciiClasses"] ++ map plain_line [#"    };"; []; #"    constexpr uint32_t COMPLETE_CHAR_CLASSES[] ="; #"    {"] ++
  [list_line #"allClasses"] ++ map plain_line [#"    };"; #"}"; []].
Definition case_tlines : list tline :=
  top_tlines #"." ++ map plain_line [#"#pragma once"; []; #"#include ""CharMappingTypes.hpp"""; []; #"namespace ystring"; #"{"] ++
  [([(#"    constexpr CompactCharMapping COMPACT_", #"name")], #"_CASE[] ="); plain_line #"    {"; list_line #"compact_mappings"] ++
  map plain_line [#"    };"; []] ++ [([(#"    constexpr CharMapping ", #"name")], #"_CASE[] ="); plain_line #"    {"; list_line #"mappings"] ++
  map plain_line [#"    };"; #"}"; []].
Definition norm_tlines : list tline :=
  top_tlines [] ++ map plain_line [#"#include <cstdint>"; []; #"namespace ystring"; #"{"; #"    constexpr uint64_t TO_DECOMPOSED[] ="; #"    {"] ++
  [list_line #"to_normalized"] ++ map plain_line [#"    };"; []; #"    constexpr uint64_t TO_COMPOSED[] ="; #"    {"] ++
  [list_line #"to_denormalized"] ++ map plain_line [#"    };"; #"}"; []].
Lemma class_template_is : lines_text (map tline_text class_tlines) = class_template.
Proof. vm_compute. reflexivity. Qed.
Lemma case_template_is : lines_text (map tline_text case_tlines) = case_template.
Proof. vm_compute. reflexivity. Qed.
Lemma norm_template_is : lines_text (map tline_text norm_tlines) = norm_template.
Proof. vm_compute. reflexivity. Qed.

Section expand.
Context (d : dict).
(** What becomes of lines, whatever comes before and after *)
Definition Becomes (ls : list tline) (os : list str) : Prop :=
  forall lines out, (forall sp, Expanded d sp lines out) -> forall sp, Expanded d sp (ls ++ lines) (os ++ out).
Lemma becomes_app ls os ls' os' : Becomes ls os -> Becomes ls' os' -> Becomes (ls ++ ls') (os ++ os').
Proof. intros H1 H2 lines out H sp. rewrite <- !app_assoc. apply H1. apply H2. exact H. Qed.
Lemma becomes_nil : Becomes [] [].
Proof. intros lines out H. exact H. Qed.
Lemma becomes_plain ss : Forall (fun s => py_rstrip s = s) ss -> Becomes (map plain_line ss) ss.
Proof.
  intros HF. induction HF as [|s ss Hs HF IH]; [apply becomes_nil|]. cbn [map]. intros lines out H sp. cbn [app].
  apply (exp_line d sp [] s []); [constructor| |]; [|apply IH, H]. cbn [combine map concat app]. apply stripped_check. exact Hs.
Qed.
Lemma becomes_value t k tail v : inline d k v -> py_rstrip (t ++ v ++ tail) = t ++ v ++ tail -> Becomes [([(t, k)], tail)] [t ++ v ++ tail].
Proof.
  intros HI HS lines out H sp. apply (exp_line d sp [(t, k)] tail [v]); [constructor; [exact HI|constructor]| |apply H].
  cbn [combine map concat app fst snd]. rewrite app_nil_r, <- app_assoc. now apply stripped_check.
Qed.
End expand.

(** A list line right after a line of text *)
Lemma becomes_list d s k l : py_rstrip s = s -> bound d k (VList l) -> (l = [[]] \/ Forall Good l) ->
  Becomes d [plain_line s; list_line k] (s :: rows_block (repeat x20 8) l).
Proof.
  intros Hs HB HL lines out H sp. cbn [app]. apply (exp_line d sp [] s []); [constructor|cbn [combine map concat app]; now apply stripped_check|].
  apply expanded_list; [|exact HB|exact HL|exact H]. apply Forall_forall. intros c Hc. apply repeat_spec in Hc. now left.
Qed.
Lemma becomes_all d ls os : Becomes d ls os -> ls <> [] -> os <> [] -> forallb plain_tlineb ls = true ->
  printed (make_text (lines_text (map tline_text ls)) d) = Some (file_text os).
Proof.
  intros HB HN HO HP. specialize (HB [] [] (exp_end d) O). rewrite !app_nil_r in HB. destruct (p_c118 d ls os HN (plain_check ls HP) HB) as [_ ->].
  cbn [printed]. f_equal. clear -HO. induction os as [|o os IH]; [congruence|]. destruct os as [|o' os]; [cbn; now rewrite app_nil_r|].
  change (lines_text (o :: o' :: os)) with (o ++ x0a :: lines_text (o' :: os)). change (file_text (o :: o' :: os)) with ((o ++ [x0a]) ++ file_text (o' :: os)).
  rewrite <- IH by discriminate. rewrite <- !app_assoc. reflexivity.
Qed.

Lemma date_no_lf s : date_text s -> ~ In x0a s.
Proof. intros [_ H] Hi. rewrite Forall_forall in H. destruct (H _ Hi) as [K|K]; [revert K; change (u8 x0a) with 10; lia|discriminate]. Qed.
Lemma date_end t s : date_text s -> py_rstrip (t ++ s) = t ++ s.
Proof.
  intros [HN H]. destruct s as [|c s _] using rev_ind; [congruence|]. apply Forall_app in H as [_ H]. apply Forall_inv in H.
  rewrite app_assoc. apply rstrip_none. destruct H as [H| ->]; [|reflexivity]. unfold py_space. lia.
Qed.
Lemma text_end t s c : py_space c = false -> py_rstrip (t ++ s ++ [c]) = t ++ s ++ [c].
Proof. intros H. rewrite app_assoc. now apply rstrip_none. Qed.
Definition top_lines (year date : str) : list str :=
  [#"//****************************************************************************";
   #"// Copyright © " ++ year ++ #" Jan Erik Breimo. All rights reserved.";
   #"// Created by Jan Erik Breimo on " ++ date;
   #"//";
   #"// This file is distributed under the Zero-Clause BSD License.";
   #"// License text is included with the source distribution.";
   #"//****************************************************************************"].
Lemma becomes_top d year date dot : date_text year -> date_text date -> (dot = [] \/ dot = #".") ->
  bound d #"year" (VOther year) -> bound d #"date" (VStr date) -> Becomes d (top_tlines dot) (top_lines year (date ++ dot)).
Proof.
  intros HY HD Hdot B1 B2. unfold top_tlines, top_lines.
  apply (becomes_app d [_] [_]); [apply (becomes_plain d [_]); constructor; [reflexivity|constructor]|].
  apply (becomes_app d [_] [_]).
  { apply becomes_value; [split; [now apply date_no_lf|now left]|].
    change #" Jan Erik Breimo. All rights reserved." with (#" Jan Erik Breimo. All rights reserved" ++ [x2e]). rewrite !app_assoc. now apply rstrip_none. }
  apply (becomes_app d [_] [_]).
  { apply becomes_value; [split; [now apply date_no_lf|right; split; [apply HD|exact B2]]|]. destruct Hdot as [-> | ->]; [rewrite app_nil_r; now apply date_end|].
    rewrite app_assoc. now apply (rstrip_none _ x2e). }
  apply (becomes_plain d [_; _; _; _]). repeat (constructor; [reflexivity|]). constructor.
Qed.
Lemma file_text_cons a l : file_text (a :: l) = a ++ x0a :: file_text l.
Proof. unfold file_text. cbn [map concat]. now rewrite <- app_assoc. Qed.

Definition class_dict (year date : str) (ascii complete : list str) : dict :=
  [(#"year", VOther year); (#"date", VStr date); (#"asciiClasses", VList ascii); (#"allClasses", VList complete)].
Lemma class_text year date a c : date_text year -> date_text date -> (a = [[]] \/ Forall Good a) -> (c = [[]] \/ Forall Good c) ->
  printed (make_text class_template (class_dict year date a c)) = Some (class_header year date (body_of 8 a) (body_of 8 c)).
Proof.
  intros HY HD HA HC. rewrite <- class_template_is. set (d := class_dict year date a c).
  assert (Becomes d class_tlines (top_lines year date ++ [#"#include <cstdint>"; []; #"namespace ystring"; #"{"; #"    constexpr uint8_t ASCII_CHAR_CLASSES[] ="] ++
    (#"    {" :: rows_block (repeat x20 8) a) ++ [#"    };"; []; #"    constexpr uint32_t COMPLETE_CHAR_CLASSES[] ="] ++ (#"    {" :: rows_block (repeat x20 8) c) ++ [#"    };"; #"}"; []])) as HB.
  { unfold class_tlines. apply becomes_app.
    { rewrite <- (app_nil_r date) at 1. apply becomes_top; auto; apply bound_first; reflexivity. }
    apply (becomes_app d (map plain_line [_; _; _; _; _])); [apply becomes_plain; repeat (constructor; [reflexivity|]); constructor|].
    apply (becomes_app d [plain_line #"    {"; list_line #"asciiClasses"]).
    { apply becomes_list; [reflexivity|apply bound_first; reflexivity|exact HA]. }
    apply (becomes_app d (map plain_line [_; _; _])); [apply becomes_plain; repeat (constructor; [reflexivity|]); constructor|].
    apply (becomes_app d [plain_line #"    {"; list_line #"allClasses"]).
    { apply becomes_list; [reflexivity|apply bound_first; reflexivity|exact HC]. }
    apply becomes_plain; repeat (constructor; [reflexivity|]); constructor. }
  rewrite (becomes_all d class_tlines _ HB); [|discriminate|discriminate|vm_compute; reflexivity].
  f_equal. unfold class_header, header_top, array, body_of. fold (top_lines year date). rewrite !file_text_app, !file_text_cons. rewrite <- !app_assoc. reflexivity.
Qed.
Definition norm_dict (year date : str) (x y : list str) : dict :=
  [(#"year", VOther year); (#"date", VStr date); (#"to_normalized", VList x); (#"to_denormalized", VList y)].
Lemma norm_text year date a c : date_text year -> date_text date -> (a = [[]] \/ Forall Good a) -> (c = [[]] \/ Forall Good c) ->
  printed (make_text norm_template (norm_dict year date a c)) = Some (norm_header year date (body_of 8 a) (body_of 8 c)).
Proof.
  intros HY HD HA HC. rewrite <- norm_template_is. set (d := norm_dict year date a c).
  assert (Becomes d norm_tlines (top_lines year date ++ [#"#include <cstdint>"; []; #"namespace ystring"; #"{"; #"    constexpr uint64_t TO_DECOMPOSED[] ="] ++
    (#"    {" :: rows_block (repeat x20 8) a) ++ [#"    };"; []; #"    constexpr uint64_t TO_COMPOSED[] ="] ++ (#"    {" :: rows_block (repeat x20 8) c) ++ [#"    };"; #"}"; []])) as HB.
  { unfold norm_tlines. apply becomes_app.
    { rewrite <- (app_nil_r date) at 1. apply becomes_top; auto; apply bound_first; reflexivity. }
    apply (becomes_app d (map plain_line [_; _; _; _; _])); [apply becomes_plain; repeat (constructor; [reflexivity|]); constructor|].
    apply (becomes_app d [plain_line #"    {"; list_line #"to_normalized"]).
    { apply becomes_list; [reflexivity|apply bound_first; reflexivity|exact HA]. }
    apply (becomes_app d (map plain_line [_; _; _])); [apply becomes_plain; repeat (constructor; [reflexivity|]); constructor|].
    apply (becomes_app d [plain_line #"    {"; list_line #"to_denormalized"]).
    { apply becomes_list; [reflexivity|apply bound_first; reflexivity|exact HC]. }
    apply becomes_plain; repeat (constructor; [reflexivity|]); constructor. }
  rewrite (becomes_all d norm_tlines _ HB); [|discriminate|discriminate|vm_compute; reflexivity].
  f_equal. unfold norm_header, header_top, array, body_of. fold (top_lines year date). rewrite !file_text_app, !file_text_cons. rewrite <- !app_assoc. reflexivity.
Qed.
Definition case_dict (name year date : str) (x y : list str) : dict :=
  [(#"year", VOther year); (#"date", VStr date); (#"name", VStr name); (#"compact_mappings", VList x); (#"mappings", VList y)].
Lemma case_text name year date a c : name <> [] -> ~ In x0a name -> date_text year -> date_text date -> (a = [[]] \/ Forall Good a) -> (c = [[]] \/ Forall Good c) ->
  printed (make_text case_template (case_dict name year date a c)) = Some (case_header name year date (body_of 8 a) (body_of 8 c)).
Proof.
  intros HN HN' HY HD HA HC. rewrite <- case_template_is. set (d := case_dict name year date a c).
  assert (inline d #"name" name) as HI by (split; [exact HN'|right; split; [exact HN|apply bound_first; reflexivity]]).
  assert (Becomes d case_tlines (top_lines year (date ++ #".") ++ [#"#pragma once"; []; #"#include ""CharMappingTypes.hpp"""; []; #"namespace ystring"; #"{"] ++
    [#"    constexpr CompactCharMapping COMPACT_" ++ name ++ #"_CASE[] ="] ++
    (#"    {" :: rows_block (repeat x20 8) a) ++ [#"    };"; []] ++ [#"    constexpr CharMapping " ++ name ++ #"_CASE[] ="] ++
    (#"    {" :: rows_block (repeat x20 8) c) ++ [#"    };"; #"}"; []])) as HB.
  { unfold case_tlines. apply becomes_app.
    { apply becomes_top; auto; apply bound_first; reflexivity. }
    apply becomes_app; [apply becomes_plain; repeat (constructor; [reflexivity|]); constructor|].
    apply (becomes_app d [_] [_]); [apply becomes_value; [exact HI|]; change #"_CASE[] =" with (#"_CASE[] " ++ [x3d]); rewrite !app_assoc; now apply rstrip_none|].
    apply (becomes_app d [plain_line #"    {"; list_line #"compact_mappings"]).
    { apply becomes_list; [reflexivity|apply bound_first; reflexivity|exact HA]. }
    apply becomes_app; [apply becomes_plain; repeat (constructor; [reflexivity|]); constructor|].
    apply (becomes_app d [_] [_]); [apply becomes_value; [exact HI|]; change #"_CASE[] =" with (#"_CASE[] " ++ [x3d]); rewrite !app_assoc; now apply rstrip_none|].
    apply (becomes_app d [plain_line #"    {"; list_line #"mappings"]).
    { apply becomes_list; [reflexivity|apply bound_first; reflexivity|exact HC]. }
    apply becomes_plain; repeat (constructor; [reflexivity|]); constructor. }
  rewrite (becomes_all d case_tlines _ HB); [|discriminate|discriminate|vm_compute; reflexivity].
  f_equal. unfold case_header, header_top, array, body_of. fold (top_lines year (date ++ #".")). rewrite !file_text_app, !file_text_cons. rewrite <- !app_assoc. reflexivity.
Qed.
