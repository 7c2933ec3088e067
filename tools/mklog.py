"""mklog.py OUT.jsonl... : turn mutate.py's results into seeded/LOG.jsonl."""
import sys, os, re, json
here = os.path.dirname(os.path.abspath(__file__)); root = os.path.dirname(here)
man = json.load(open(os.path.join(root, "MANIFEST.json")))
where = {}
th = os.path.join(root, "rocq", "theories")
for f in os.listdir(th):
    if f.endswith(".v"):
        for n in re.findall(r"^\s*(?:Theorem|Lemma|Corollary|Example)\s+(\w+)", open(os.path.join(th, f)).read(), re.M):
            where.setdefault(n, f[:-2])
claims = {c["property"]: c["theorems"] for c in man["claims"]}
notes = {}
tf = os.path.join(here, "tightened.json")
if os.path.exists(tf): notes = json.load(open(tf))
with open(os.path.join(root, "seeded", "LOG.jsonl"), "w") as o:
    for a in sys.argv[1:]:
        for l in open(a):
            r = json.loads(l)
            lost = [t for t in claims.get(r["property"], []) if where.get(t.split(".")[-1]) in r["not_rebuilt"]]
            n = notes.get(r["id"], {})
            o.write(json.dumps(dict(id=r["id"], property=r["property"], definition="%s.%s" % (r["file"], r["definition"]),
                edit={"old": r["old"], "new": r["new"]}, claim=r["claim"], failed=r["failed"],
                property_theorems_lost=lost, caught=bool(r["failed"]), tightened=n.get("tightened", []), note=n.get("note", ""))) + "\n")
