"""Seeded bugs: apply one edit of tools/mutants.py to a scratch copy of the
built development, rebuild, and record which lemmas fail.
usage: mutate.py BASE WORK OUT [ids...]  (BASE: a built copy of rocq/)"""
import sys, os, re, json, subprocess, time
here = os.path.dirname(os.path.abspath(__file__))
sys.path.insert(0, here)
from mutants import M
base, work, out = sys.argv[1:4]
only = set(sys.argv[4:])
jobs = os.environ.get("JOBS", "2")
done = set()
if os.path.exists(out):
    done = {json.loads(l)["id"] for l in open(out)}
def lemma_at(path, line):
    name = None
    for i, l in enumerate(open(path), 1):
        if i > line: break
        mo = re.match(r"\s*(?:Local |Global |#\[.*\] )?(?:Lemma|Theorem|Corollary|Example|Definition|Fixpoint|Fact)\s+(\w+)", l)
        if mo: name = mo.group(1)
    return name
order = [l.strip() for l in open(os.path.join(base, "_CoqProject")) if l.strip().endswith(".v")]
for (i, prop, f, d, old, new, claim) in M:
    if only and i not in only: continue
    if i in done: continue
    subprocess.run(["rm", "-rf", work], check=True); subprocess.run(["cp", "-a", base, work], check=True)
    p = os.path.join(work, "theories", f + ".v")
    s = open(p).read()
    if s.count(old) != 1:
        print(i, "pattern found", s.count(old), "times", flush=True); continue
    open(p, "w").write(s.replace(old, new))
    t0 = time.time()
    r = subprocess.run(["make", "-k", "-j" + jobs], cwd=work, stdout=subprocess.PIPE, stderr=subprocess.STDOUT, text=True)
    errs = re.findall(r'File "\./(theories/(\w+)\.v)", line (\d+)[^\n]*\n(?:[^F\n][^\n]*\n)*?Error', r.stdout)
    fails = sorted({(b, lemma_at(os.path.join(work, a), int(n))) for a, b, n in errs})
    n = subprocess.run(["make", "-n", "-k"], cwd=work, stdout=subprocess.PIPE, stderr=subprocess.STDOUT, text=True).stdout
    unbuilt = [os.path.basename(o)[:-2] for o in order if re.search(r"theories/%s\.v\b" % os.path.basename(o)[:-2], n)]
    res = dict(id=i, property=prop, file=f, definition=d, old=old, new=new, claim=claim,
               failed=["%s.%s" % x for x in fails], not_rebuilt=unbuilt, seconds=int(time.time() - t0))
    with open(out, "a") as o: o.write(json.dumps(res) + "\n")
    print(i, prop, d, res["failed"], len(unbuilt), res["seconds"], flush=True)
