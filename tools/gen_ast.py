#!/usr/bin/env python3
"""Writes rocq/theories/SourceAst.v: the syntax trees that the reader of
CppSyntax.v gives for the texts of SourceText.v, printed by Coq.  SourceAst.v
proves that they are what the reader gives, so nothing here is trusted.
Needs CppSyntax.vo and SourceText.vo."""
import os, re, subprocess, tempfile
HERE = os.path.dirname(os.path.abspath(__file__))
TH = os.path.join(HERE, "..", "rocq", "theories")
FILES = [l.split()[1] for l in open(os.path.join(TH, "SourceText.v")) if l.startswith("Definition ")]
PRE = """From Coq Require Import String List ZArith Ascii.
From Verif Require Import Bytes CppSyntax SourceText.
Import ListNotations.
Local Open Scope string_scope.
Local Open Scope Z_scope.
Set Printing Width 150.
Set Printing Depth 100000.
Definition the (f : string) : list item := match read_file f with Some l => l | None => nil end.
Definition fun_at (f : string) (n : nat) : option stmt :=
  match nth_error (the f) n with Some (IFun g) => fn_body g | _ => None end.
Definition strip (i : item) : item := match i with IFun g => IFun (mkFn (fn_class g) (fn_name g) (fn_ret g) (fn_params g) (fn_dflt g) None) | x => x end.
Definition known (i : item) : option string := match i with IFun g => match fn_body g with Some _ => Some (fn_name g) | None => Some "" end | _ => None end.
"""
def run(cmds):
    with tempfile.TemporaryDirectory() as d:
        p = os.path.join(d, "g.v")
        open(p, "w").write(PRE + "\n".join(cmds) + "\n")
        o = subprocess.run(["coqc", "-Q", TH, "Verif", p], capture_output=True, text=True, cwd=d)
        if o.returncode: raise SystemExit(o.stderr)
        return [re.sub(r"\s*: [^:=]*$", "", b).strip() for b in re.split(r"^     = ", o.stdout, flags=re.M)[1:]]
out = ["(** Written by tools/gen_ast.py: the syntax trees of the texts of SourceText.v. *)",
       "From Coq Require Import String List ZArith Ascii.", "From Verif Require Import Bytes CppSyntax SourceText.",
       "Import ListNotations.", "Local Open Scope string_scope.", "Local Open Scope Z_scope.", ""]
names = run(["Eval vm_compute in map known (the %s)." % f for f in FILES])
heads = run(["Eval vm_compute in map strip (the %s)." % f for f in FILES])
for f, ns, hd in zip(FILES, names, heads):
    ns = re.findall(r'Some "([^"]*)"|(None)', ns)
    idx = [(i, a) for i, (a, b) in enumerate(ns) if a]
    bodies = run(["Eval vm_compute in fun_at %s %d%%nat." % (f, i) for i, a in idx]) if idx else []
    short = f.replace("_cpp", "").replace("_hpp", "_h")
    for (i, a), b in zip(idx, bodies):
        assert b.startswith("Some"), b[:40]
        b = b[4:].strip()
        out.append("Definition %s_%s : stmt :=\n  %s." % (short, a, b))
    # put the bodies back
    known = [a for a, b in ns if not b]
    parts = re.split(r"fn_body := None", hd)
    assert len(parts) == len(known) + 1
    hd = parts[0] + "".join("fn_body := " + ("Some %s_%s" % (short, a) if a else "None") + p for a, p in zip(known, parts[1:]))
    out.append("Definition %s_items : list item :=\n  %s." % (short, hd))
    out.append("Lemma %s_read : read_file %s = Some %s_items.\nProof. vm_compute. reflexivity. Qed." % (short, f, short))
    out.append("")
open(os.path.join(TH, "SourceAst.v"), "w").write("\n".join(out))
