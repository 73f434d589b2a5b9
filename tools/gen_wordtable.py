#!/usr/bin/env python3
# Generates rocq/theories/WordTable.v: the code point ranges of str.isalnum() (Unicode of this Python).
import os, unicodedata
root = os.path.dirname(os.path.dirname(os.path.abspath(__file__)))
rs = []
for c in range(0x110000):
    if chr(c).isalnum():
        if rs and rs[-1][1] == c - 1: rs[-1][1] = c
        else: rs.append([c, c])
with open(root + "/rocq/theories/WordTable.v", "w") as f:
    f.write("(** * WordTable: generated by tools/gen_wordtable.py\n\n"
            "    The ranges of code points for which Python's str.isalnum() is true (Unicode %s). *)\n\n"
            "From Verif Require Import PyBase.\n\n" % unicodedata.unidata_version)
    f.write("Definition alnum_ranges : list (N * N) :=\n  [")
    line = ""
    out = []
    for a, b in rs:
        out.append("(%d, %d)" % (a, b))
    txt = ""
    for i in range(0, len(out), 8):
        txt += "; ".join(out[i:i+8]) + (";\n   " if i + 8 < len(out) else "")
    f.write(txt + "]%N.\n\n")
    f.write("(** str.isalnum() on one code point *)\nDefinition is_alnum (c : N) : bool :=\n  existsb (fun r => (fst r <=? c) && (c <=? snd r))%N alnum_ranges.\n\n"
            "(** Regex class [\\w] for str patterns *)\nDefinition is_word (c : N) : bool := is_alnum c || (c =? 95)%N.\n")
print(len(rs))
