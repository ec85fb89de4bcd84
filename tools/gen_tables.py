#!/usr/bin/env python3
"""Generate rocq/theories/Tables/*.v.

The *Tables.v files copy the arrays of src/Ystring/*Tables.hpp literally.
UnicodeDataTables.v is the specification data: columns of
data/unicode/UnicodeData16.0.0.txt, with adjacent rows of equal category merged.

usage: gen_tables.py /repo /verif/rocq/theories/Tables
"""
import os
import re
import sys

repo, out = sys.argv[1], sys.argv[2]
src = os.path.join(repo, "src", "Ystring")


def arrays(name):
    """Yield (array name, first line, last line, body) of each array."""
    text = open(os.path.join(src, name), encoding="utf-8").read()
    for m in re.finditer(r"constexpr \w+ (\w+)\[\] =\s*\{(.*?)\};", text, re.S):
        first = text.count("\n", 0, m.start()) + 1
        last = text.count("\n", 0, m.end()) + 1
        yield m.group(1), first, last, m.group(2)


def numbers(body):
    return re.findall(r"0x[0-9A-Fa-f]+|\d+", body)


def wrap(items, per_line):
    lines = []
    for i in range(0, len(items), per_line):
        lines.append("  " + "; ".join(items[i:i + per_line]))
    return ";\n".join(lines)


def definition(comment, name, typ, items, per_line):
    return "(** %s *)\nDefinition %s : %s := [\n%s\n].\n" % (comment, name, typ, wrap(items, per_line))


def write(name, body, imports="From Verif Require Import Base."):
    with open(os.path.join(out, name), "w", newline="\n") as f:
        f.write("(** Generated by tools/gen_tables.py; do not edit. *)\n%s\n\n%s" % (imports, body))


def simple(file, names, per_line):
    res = []
    for name, first, last, body in arrays(file):
        assert name in names, name
        res.append(definition("src/Ystring/%s:%d-%d" % (file, first, last), name, "list N", numbers(body), per_line))
    return "\n".join(res)


write("CharClassTables.v", simple("CharClassTables.hpp", ("ASCII_CHAR_CLASSES", "COMPLETE_CHAR_CLASSES"), 6))
write("NormalizationTables.v", simple("NormalizationTables.hpp", ("TO_DECOMPOSED", "TO_COMPOSED"), 3))

body = []
for file in ("LowerCaseTables.hpp", "TitleCaseTables.hpp", "UpperCaseTables.hpp"):
    for name, first, last, text in arrays(file):
        rows = [numbers(r) for r in re.findall(r"\{([^{}]*)\}", text)]
        compact = name.startswith("COMPACT_")
        assert all(len(r) == (4 if compact else 2) for r in rows)
        items = ["(%s)" % ", ".join(r) for r in rows]
        typ = "list (N * N * N * N)" if compact else "list (N * N)"
        body.append(definition("src/Ystring/%s:%d-%d" % (file, first, last), name, typ, items, 2 if compact else 4))
write("CaseTables.v", "\n".join(body))

# --- UnicodeData ---------------------------------------------------------
rows = []
with open(os.path.join(repo, "data", "unicode", "UnicodeData16.0.0.txt"), encoding="utf-8") as f:
    for line in f:
        rows.append(line.rstrip("\n").split(";"))

ranges = []  # (first, last, category)
pending = None
for r in rows:
    cp = int(r[0], 16)
    if r[1].endswith(", First>"):
        pending = cp
        continue
    first = cp
    if r[1].endswith(", Last>"):
        first, pending = pending, None
    if ranges and ranges[-1][2] == r[2] and ranges[-1][1] + 1 == first:
        ranges[-1][1] = cp
    else:
        ranges.append([first, cp, r[2]])


def mapping(field):
    return ["(0x%X, 0x%X)" % (int(r[0], 16), int(r[field], 16)) for r in rows if r[field]]


pairs = []
singletons = []
for r in rows:
    d = r[5]
    if d and not d.startswith("<"):
        p = [int(x, 16) for x in d.split()]
        if len(p) == 2:
            pairs.append("(0x%X, (0x%X, 0x%X))" % (int(r[0], 16), p[0], p[1]))
        else:
            assert len(p) == 1
            singletons.append((int(r[0], 16), p[0]))

ud = "data/unicode/UnicodeData16.0.0.txt"
body = [
    definition(ud + ", columns 0 and 2 (general category); rows First/Last are ranges,\n    adjacent rows with equal category are merged",
               "UD_CATEGORIES", "list (N * N * category)",
               ["(0x%X, 0x%X, %s)" % tuple(r) for r in ranges], 4),
    definition(ud + ", columns 0 and 12 (simple upper case mapping)", "UD_UPPER", "list (N * N)", mapping(12), 5),
    definition(ud + ", columns 0 and 13 (simple lower case mapping)", "UD_LOWER", "list (N * N)", mapping(13), 5),
    definition(ud + ", columns 0 and 14 (simple title case mapping)", "UD_TITLE", "list (N * N)", mapping(14), 5),
    definition(ud + ", columns 0 and 5: canonical decompositions with two elements", "UD_PAIRS",
               "list (N * (N * N))", pairs, 3),
]
write("UnicodeDataTables.v", "\n".join(body), "From Verif Require Import Base Spec.Category.")

runs = []  # consecutive rows (one row per code point) with the same category
for r in rows:
    cp = int(r[0], 16)
    if runs and runs[-1][2] == r[2] and runs[-1][1] + 1 == cp:
        runs[-1][1] = cp
    else:
        runs.append([cp, cp, r[2]])
write("UnicodeRows.v", definition(
    ud + ", columns 0 and 2, row by row: (lo, hi, k) stands\n    for the rows lo, lo + 1, ..., hi, each of category k.  A First/Last pair is two rows.",
    "UD_ROW_RUNS", "list (N * N * category)", ["(0x%X, 0x%X, %s)" % tuple(r) for r in runs], 4),
    "From Verif Require Import Base Spec.Category.")

# --- normalization forms -------------------------------------------------
assert all(r[3] == "0" for r in rows if r[1].endswith(", First>") or r[1].endswith(", Last>"))
write("CanonicalTables.v", "\n".join([
    definition(ud + ", columns 0 and 5: canonical decompositions with one element", "UD_SINGLETONS", "list (N * N)",
               ["(0x%X, 0x%X)" % p for p in singletons], 5),
    definition(ud + ", columns 0 and 3: canonical combining classes other than 0", "UD_COMBINING", "list (N * N)",
               ["(0x%X, %d)" % (int(r[0], 16), int(r[3])) for r in rows if r[3] != "0"], 6),
]))
