#!/usr/bin/env python3
"""Transcribes the constant tables of /repo into rocq/theories/Tables.v."""
import re, sys
SRC = [
 ("include/rank_select_algorithms/common.hpp", [("lt_cnt","lt_cnt"),("ps_overflow","ps_overflow"),("lt_sel","lt_sel"),("select_in_byte","select_in_byte")]),
 ("include/segment_tree/avx2/tables.hpp", [("update_4_64","update_4_64"),("update_8_32","update_8_32"),("update_16_16","update_16_16")]),
 ("include/segment_tree/avx512/tables.hpp", [("update_8_64","update_8_64"),("update_16_32","update_16_32"),("update_32_16","update_32_16")]),
]
out = ["(** Constant tables, transcribed from the sources by tools/gen_tables.py. *)",
       "From Verif Require Import Base.", ""]
for path, names in SRC:
    text = open("/repo/" + path).read()
    for name, coq in names:
        m = re.search(r"static const \w+ " + name + r"\[[^\]]*\][^=]*=\s*\{([^}]*)\}", text)
        body = re.sub(r"//[^\n]*", "", m.group(1))
        vals = [int(t.strip().rstrip("UL").replace("+", ""), 0) for t in body.split(",") if t.strip()]
        l0 = text[:m.start()].count("\n") + 1
        l1 = text[:m.end()].count("\n") + 1
        out.append(f"(** {path} lines {l0}-{l1} ({len(vals)} entries). *)")
        out.append(f"Definition {coq} : list Z := [")
        row = []
        for i in range(0, len(vals), 24):
            row.append("  " + "; ".join(str(v) if v >= 0 else f"({v})" for v in vals[i:i+24]))
        out.append(";\n".join(row) + "].\n")
open(sys.argv[1], "w").write("\n".join(out))
