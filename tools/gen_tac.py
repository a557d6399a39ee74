#!/usr/bin/env python3
"""gen_tac.py TACNAME PREFIX RECORDFILE RECORD -> an Ltac that computes projections of setters (in goal and hypotheses)."""
import re, sys
tac, pre, fn, rec = sys.argv[1:5]
s = open(fn).read()
body = s[s.index(f"Record {rec} :="):]
body = body[:body.index("}.")]
fs = re.findall(r"\b(" + pre + r"\w+) :", body)
names = " ".join(fs + ["set_" + f for f in fs])
print(f"Ltac {tac} := cbn [{names}] in *.")
print(f"Ltac {tac}_goal := cbn [{names}].")
