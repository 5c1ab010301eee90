#!/usr/bin/env python3
"""usage: run_mutants.py BASE OUT.jsonl WORKERS [id-prefix ...]: runs the mutants of seeded/mutants.py that OUT does not have yet."""
import concurrent.futures as cf, json, os, subprocess, sys, tempfile
here = os.path.dirname(os.path.abspath(__file__))
ns = {}
exec(open(os.path.join(here, "../seeded/mutants.py")).read(), ns)
auto = os.path.join(here, "../seeded/auto.jsonl")
if os.path.exists(auto):
    ns["MUTANTS"] += [json.loads(l) for l in open(auto)]
base, out, workers = sys.argv[1], sys.argv[2], int(sys.argv[3])
pre = tuple(sys.argv[4:]) or ("",)
done = {json.loads(l)["id"] for l in open(out)} if os.path.exists(out) else set()
# the files of theorems that were added or tightened because of a mutant are checked as well
import glob, re
tight = json.load(open(os.path.join(here, "../seeded/tightened.json")))
home = {}
for f in glob.glob(os.path.join(base, "theories/Prop*.v")):
    for n in re.findall(r"^Theorem (\w+)", open(f).read(), re.M):
        home[n] = os.path.basename(f)[:-2]
for m in ns["MUTANTS"]:
    m["targets"] = m["targets"] + sorted({home[t.split()[0]] for t in tight.get(m["id"], []) if t.split()[0] in home} - set(m["targets"]))
def run(m):
    with tempfile.TemporaryDirectory(dir="/tmp") as d:
        json.dump(m, open(d + "/spec.json", "w"))
        pr = subprocess.run([sys.executable, here + "/mutate.py", base, d + "/scratch", d + "/spec.json"], capture_output=True, text=True)
        return m, pr
with cf.ThreadPoolExecutor(workers) as ex:
    for f in cf.as_completed([ex.submit(run, m) for m in ns["MUTANTS"] if m["id"] not in done and m["id"].startswith(pre)]):
        m, pr = f.result()
        if pr.returncode:
            print(m["id"], "tool error", pr.stderr[-500:], flush=True); continue
        r = json.loads(pr.stdout)
        missed = [e for e in m["expect"] if not any(x.startswith(e) for x in r["failed"])]
        open(out, "a").write(json.dumps(r) + "\n")
        print(m["id"], "MISSED " + " ".join(missed) if missed and not r["ill_formed"] else "ok" if r["failed"] or r["ill_formed"] else "NONE", "ILL " + r["ill_formed"][-200:] if r["ill_formed"] else " ".join(r["failed"]), r["seconds"], flush=True)
