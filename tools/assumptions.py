#!/usr/bin/env python3
"""Writes ASSUMPTIONS.md: what Print Assumptions says about each theorem of
MANIFEST.json.  Needs a built tree (rocq/theories/*.vo)."""
import json, os, re, subprocess
ROOT = os.path.join(os.path.dirname(os.path.abspath(__file__)), "..")
TH = os.path.join(ROOT, "rocq", "theories")
names = sorted({t for c in json.load(open(ROOT + "/MANIFEST.json"))["claims"] for t in c["theorems"]})
home = {}
for f in sorted(os.listdir(TH)):
    if f.startswith("Prop") and f.endswith(".v"):
        for n in re.findall(r"^Theorem (\w+)", open(os.path.join(TH, f)).read(), re.M): home[n] = f[:-2]
by = {}
for n in names: by.setdefault(home[n], []).append(n)
rows = []
for f, ns in sorted(by.items()):
    src = "From Verif Require %s.\n" % f + "".join("Print Assumptions %s.%s.\n" % (f, n) for n in ns)
    open("/tmp/assumptions.v", "w").write(src)
    out = subprocess.run(["coqc", "-Q", TH, "Verif", "/tmp/assumptions.v"], capture_output=True, text=True, check=True).stdout
    parts = re.split(r"(?=^Closed under|^Axioms:)", out, flags=re.M)[1:]
    assert len(parts) == len(ns), (f, len(parts), len(ns))
    rows += [(n, f, p.strip().replace("\n", " ")) for n, p in zip(ns, parts)]
with open(ROOT + "/ASSUMPTIONS.md", "w") as o:
    o.write("# Print Assumptions, theorem by theorem\n\nWritten by `tools/assumptions.py`.\n\n| theorem | file | Print Assumptions |\n|---|---|---|\n")
    for r in rows: o.write("| `%s` | %s | %s |\n" % r)
print(len(rows), sum("Closed" not in r[2] for r in rows))
