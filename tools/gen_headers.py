#!/usr/bin/env python3
"""Generate rocq/theories/Tables/HeaderTexts.v: the text of the five generated
headers of src/Ystring, line by line.

usage: gen_headers.py /repo /verif/rocq/theories/Tables
"""
import os
import sys

repo, out = sys.argv[1], sys.argv[2]
res = ["(** Generated by tools/gen_headers.py; do not edit. *)", "From Coq Require Import String.", "From Verif Require Import Base.",
       "Local Notation \"'#' s\" := (list_byte_of_string s%string) (at level 5, only parsing).",
       "Definition lines_of (l : list str) : str := concat (map (fun x => x ++ [x0a]) l).", ""]
for name, ident in (("CharClassTables", "CHAR_CLASS_HEADER"), ("LowerCaseTables", "LOWER_CASE_HEADER"),
                    ("TitleCaseTables", "TITLE_CASE_HEADER"), ("UpperCaseTables", "UPPER_CASE_HEADER"),
                    ("NormalizationTables", "NORMALIZATION_HEADER")):
    text = open(os.path.join(repo, "src", "Ystring", name + ".hpp"), encoding="utf-8", newline="").read()
    assert "\r" not in text
    res.append("(** src/Ystring/%s.hpp, the whole file *)" % name)
    assert text.endswith("\n")
    lines = ['#"%s"' % l.replace('"', '""') for l in text[:-1].split("\n")]
    res.append("Definition %s : str := lines_of [\n%s]." % (ident, ";\n".join(lines)))
open(os.path.join(out, "HeaderTexts.v"), "w", encoding="utf-8", newline="\n").write("\n".join(res) + "\n")
