#!/usr/bin/env python3
"""Mutation testing of the model.

usage: mutate.py MUTANTS.json [first [last]]

MUTANTS.json is a list of {"id", "file", "definition", "old", "new", "claim"}.
For each one a scratch copy of the Coq tree (outside this repository) is edited
and every dependent file recompiled.  A proof that no longer goes through is
replaced by Admitted in the scratch copy, so that the remaining ones are still
tried; Print Assumptions then shows which theorems rest on a broken proof.
Results are printed as JSON lines."""
import json, os, re, shutil, subprocess, sys

SRC = os.environ.get("MUT_SRC", "/verif/rocq")
TMP = os.environ.get("MUT_TMP", "/tmp/mutant")
LIMIT = 240
HEAD = re.compile(r"^\s*(Lemma|Theorem|Example|Corollary|Fact|Remark|Fixpoint|Definition|Instance)\s+([A-Za-z0-9_']+)", re.M)

def files():
    return [l.strip() for l in open(SRC + "/_CoqProject") if l.strip().endswith(".v")]

def deps(fs):
    out = subprocess.run(["coqdep", "-Q", "theories", "Verif"] + fs, cwd=TMP, capture_output=True, text=True).stdout
    d = {f: set() for f in fs}
    for line in out.splitlines():
        if ":" not in line: continue
        l, r = line.split(":", 1)
        t = [x for x in l.split() if x.endswith(".vo")]
        if t and t[0][:-1] in d:
            d[t[0][:-1]] |= {x[:-1] for x in r.split() if x.endswith(".vo")}
    return d

def compile_file(f):
    """Returns (failed lemma names, output, ok)."""
    failed, path = [], os.path.join(TMP, f)
    while True:
        try:
            r = subprocess.run(["coqc", "-time", "-Q", "theories", "Verif", f], cwd=TMP, capture_output=True, timeout=LIMIT)
            out, err, code = r.stdout.decode(errors="replace"), r.stderr.decode(errors="replace"), r.returncode
            timeout = False
        except subprocess.TimeoutExpired as e:
            out, err, code, timeout = (e.stdout or b"").decode(errors="replace"), "", 1, True
        if code == 0: return failed, out, True
        src = open(path, "rb").read()
        if timeout:
            m = re.findall(r"^Chars (\d+) - (\d+)", out, re.M)
            off = int(m[-1][1]) + 1 if m else 0
        else:
            m = re.search(r'line (\d+), characters (\d+)', err)
            if not m: return failed, out + err, False
            lines = src.split(b"\n")
            off = sum(len(x) + 1 for x in lines[:int(m.group(1)) - 1]) + int(m.group(2))
        text = src.decode("latin1")
        best = None
        for h in HEAD.finditer(text):
            if h.start() <= off + 1: best = h
        if best is None: return failed, out + err, False
        name = best.group(2)
        p = text.find("Proof", best.end())
        q = re.compile(r"\b(Qed|Defined)\.").search(text, max(p, 0))
        q = q.start() if q else -1
        if p < 0 or q < 0 or off < p - 1 and off > q or name in failed:
            # a statement that no longer type-checks: comment nothing, give up on the file
            return failed + [name], out + err, False
        if off < p - 1:
            return failed + [name], out + err, False
        end = text.index(".", q) + 1
        text = text[:p] + "Admitted." + text[end:]
        open(path, "wb").write(text.encode("latin1"))
        failed.append(name)

def run(m, fs, manifest):
    shutil.rmtree(TMP, ignore_errors=True)
    shutil.copytree(SRC, TMP)
    path = os.path.join(TMP, m["file"])
    src = open(path).read()
    if src.count(m["old"]) != 1:
        return {"id": m["id"], "error": "old text occurs %d times" % src.count(m["old"])}
    open(path, "w").write(src.replace(m["old"], m["new"]))
    d = deps(fs)
    dirty, failed, broken, dependent = {m["file"]}, {}, [], []
    for f in fs:
        if not (f in dirty or d[f] & dirty): continue
        dirty.add(f)
        if any(x in broken for x in d[f]):
            broken.append(f); continue
        bad, out, ok = compile_file(f)
        if bad: failed[f] = bad
        if not ok:
            if f == m["file"]:
                return {"id": m["id"], "error": "mutant does not compile: " + out[-400:]}
            broken.append(f)
        text = open(os.path.join(TMP, f)).read()
        names = re.findall(r"^Print Assumptions ([A-Za-z0-9_']+)\.", text, re.M)
        blocks = re.findall(r"^(Closed under the global context|Axioms:)", out, re.M)
        for n, b in zip(names, blocks):
            if b.startswith("Axioms"): dependent.append(n)
    bad = {n for v in failed.values() for n in v}
    thms = [t for t in manifest if t in bad or t in dependent]
    others = sorted(bad - set(manifest))
    return {"id": m["id"], "definition": m["definition"], "edit": m["old"].strip() + "  =>  " + m["new"].strip(),
            "claim_broken": m["claim"], "theorems_failed": thms, "lemmas_failed": others[:12],
            "files_not_built": [os.path.basename(x) for x in broken], "caught": bool(thms)}

def main():
    ms = json.load(open(sys.argv[1]))
    a = int(sys.argv[2]) if len(sys.argv) > 2 else 0
    b = int(sys.argv[3]) if len(sys.argv) > 3 else len(ms)
    manifest = [t for c in json.load(open("/verif/MANIFEST.json"))["claims"] for t in c["theorems"]]
    fs = files()
    for m in ms[a:b]:
        print(json.dumps(run(m, fs, manifest)), flush=True)

main()
