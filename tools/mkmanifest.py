#!/usr/bin/env python3
"""Write MANIFEST.json from the table below, checking that the theorems exist."""
import json, re, os, glob
here = os.path.dirname(os.path.dirname(os.path.abspath(__file__)))
names = set()
for f in glob.glob(here + "/rocq/theories/*.v"):
    names |= set(re.findall(r"^Theorem (\w+)", open(f).read(), re.M))
claims = []
def c(prop, status, theorems, note):
    for t in theorems.split():
        assert t in names, t
    claims.append({"property": prop, "status": status, "theorems": theorems.split(), "note": note})
exec(open(here + "/tools/claims.py").read())
used = {t for x in claims for t in x["theorems"]}
for t in sorted(names):
    if re.match(r"C\d\d", t) and t not in used:
        print("unclaimed theorem:", t)
ids = [json.loads(l)["id"] for l in open(here + "/properties.jsonl")]
print("no claim:", [i for i in ids if i not in {x["property"] for x in claims}])
json.dump({"claims": claims}, open(here + "/MANIFEST.json", "w"), indent=1)
