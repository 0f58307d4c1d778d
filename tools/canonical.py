#!/usr/bin/env python3
# Writes rocq/theories/Data/Canonical.v: the canonical decomposition mappings
# and canonical combining classes of the Unicode character database, as Python's
# unicodedata module has them.  (Not part of /repo; both properties are stable:
# they never change for characters once assigned.)
import unicodedata
out = []
w = out.append
v = unicodedata.unidata_version
w("(* Generated by tools/canonical.py from the unicodedata module of Python,")
w(f"   version {v} of the Unicode character database: the canonical decomposition")
w("   mappings (fifth field of UnicodeData.txt without a <tag>; those of Hangul")
w("   syllables are arithmetic and not listed) and the canonical combining classes")
w("   other than 0. *)")
w("From Coq Require Import List NArith.")
w("Import ListNotations.")
w("Open Scope N_scope.")
w("")
w("Definition canonical_mappings : list (N * list N) := [")
rows = []
for c in range(0x110000):
    d = unicodedata.decomposition(chr(c))
    if d and not d.startswith('<'):
        rows.append("  (0x%X, [%s])" % (c, "; ".join("0x" + x for x in d.split())))
w(";\n".join(rows) + "].")
w("")
w("Definition ccc_ranges : list (N * N * N) := [")
rs = []
for c in range(0x110000):
    k = unicodedata.combining(chr(c))
    if k:
        if rs and rs[-1][1] == c - 1 and rs[-1][2] == k: rs[-1][1] = c
        else: rs.append([c, c, k])
w(";\n".join("  (0x%X, 0x%X, %d)" % tuple(r) for r in rs) + "].")
open("rocq/theories/Data/Canonical.v", "w").write("\n".join(out) + "\n")
