#!/usr/bin/env python3
"""Writes rocq/theories/SourceText.v: the text of source files of the repository
as Coq strings, byte for byte.  With --check, compares instead of writing."""
import os, sys
REPO = os.environ.get("REPO", "/repo")
HERE = os.path.dirname(os.path.abspath(__file__))
FILES = ["objdump/parser.cpp", "objdump/parser.hpp", "assembly/parser.cpp", "assembly/parser.hpp", "types/line.hpp",
         "types/filter.hpp", "utils/utils.cpp", "utils/utils.hpp", "utils/library_detection.cpp",
         "utils/library_detection.hpp", "utils/regexwrappers.cpp", "utils/regexwrappers.hpp"]
out = ["(** Written by tools/gen_source.py: the text of source files of the repository. *)",
       "From Coq Require Import String.", "Local Open Scope string_scope.", ""]
for f in FILES:
    t = open(os.path.join(REPO, "src", f), encoding="ascii", newline="").read()
    out.append("(** src/%s *)" % f)
    out.append("Definition %s : string := \"%s\"." % (f.replace("/", "_").replace(".", "_"), t.replace('"', '""')))
text = "\n".join(out) + "\n"
path = os.path.join(HERE, "..", "rocq", "theories", "SourceText.v")
if "--check" in sys.argv:
    same = open(path, encoding="ascii", newline="").read() == text
    print("same" if same else "different")
    sys.exit(0 if same else 1)
open(path, "w", encoding="ascii", newline="").write(text)
