"""Writes MANIFEST.json.  Run from /verif.  Checks that every theorem named exists."""
import json, re, glob

claims = []
def c(prop, status, theorems, note=""):
    claims.append({"property": prop, "status": status, "theorems": theorems.split(), "note": note})

exec(open("tools/claims.py").read())

have = set()
for f in glob.glob("rocq/theories/*.v"):
    have |= set(re.findall(r"^Theorem (\w+)", open(f).read(), re.M))
props = [json.loads(l)["id"] for l in open("properties.jsonl")]
for x in claims:
    assert x["property"] in props, x["property"]
    for t in x["theorems"]:
        assert t in have, t
used = {t for x in claims for t in x["theorems"]}
print("unclaimed theorems:", sorted(have - used))
print("properties without claim:", [p for p in props if p not in {x["property"] for x in claims}])
json.dump({"claims": claims}, open("MANIFEST.json", "w"), indent=1)
