#!/usr/bin/env python3
"""Copies the regular expressions of the source, character by character, into
rocq/theories/Patterns.v.  With --check: compares instead of writing."""
import os, re, sys
ROOT = os.path.dirname(os.path.dirname(os.path.abspath(__file__)))
SRC = os.environ.get("ASM_PARSER_SRC", "/repo") + "/src/utils/"
OUT = ROOT + "/rocq/theories/Patterns.v"
rows = []
text = open(SRC + "regexes.hpp").read()
text = re.sub(r"//[^\n]*static constexpr[^\n]*", "", text)
for m in re.finditer(r'static constexpr auto (\w+) =\s*ctre::(\w+)<R"re\((.*?)\)re">;', text, re.S):
    rows.append((m.group(1), m.group(2), m.group(3), "regexes.hpp:%d" % (text.count("\n", 0, m.start(2)) + 1)))
text = open(SRC + "regexwrappers.cpp").read()
for m in re.finditer(r'ctre::(\w+)<R"re\((.*?)\)re">', text, re.S):
    rows.append(("usedLabels", m.group(1), m.group(2), "regexwrappers.cpp:%d" % (text.count("\n", 0, m.start(1)) + 1)))
out = '''(** Written by tools/gen_patterns.py: name, kind and text of every regular
    expression of src/utils/regexes.hpp, and of the one in
    src/utils/regexwrappers.cpp, copied character by character. *)
From Coq Require Import String List.
Import ListNotations.
Local Open Scope string_scope.

(** ctre::match, ctre::search, ctre::range *)
Inductive kind := k_match | k_search | k_range.
Definition patterns : list (string * kind * string) :=
  [
'''
out += ";\n".join('    ("%s", k_%s, "%s") (* %s *)' % (n, k, p.replace('"', '""'), w) for n, k, p, w in rows) + "\n  ].\n"
if "--check" in sys.argv:
    ok = open(OUT).read() == out
    print("%d patterns, %s" % (len(rows), "same" if ok else "DIFFERENT"))
    sys.exit(0 if ok else 1)
open(OUT, "w").write(out)
print(len(rows), "patterns")
