#!/usr/bin/env python3
"""gen_record.py NAME CONSTRUCTOR PREFIX  < 'field : type' lines  -> Coq record with one setter per field."""
import sys
name, con, pre = sys.argv[1:4]
fs = []
for l in sys.stdin:
    l = l.rstrip()
    if not l.strip():
        continue
    com = ""
    if "(*" in l:
        l, com = l.split("(*", 1)
        com = " (*" + com
    f, t = l.split(":", 1)
    fs.append((f.strip(), t.strip(), com))
print(f"Record {name} := {con} {{")
for i, (f, t, com) in enumerate(fs):
    print(f"  {pre}{f} : {t}{';' if i + 1 < len(fs) else ''}{com}")
print("}.")
for f, t, _ in fs:
    args = " ".join("v" if g == f else f"({pre}{g} s)" for g, _, _ in fs)
    print(f"Definition set_{pre}{f} (v : {t}) (s : {name}) : {name} :=\n  {con} {args}.")
