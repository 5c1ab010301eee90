#!/usr/bin/env python3
"""usage: gen_using.py BASE  (a built copy of rocq/).  Writes BASE/using.json: for every lemma proved inside a section, the
section variables its proof uses.  mutate.py needs them to keep the type of a lemma whose proof it drops."""
import glob, json, os, re, subprocess, sys, tempfile
th = os.path.join(sys.argv[1], "theories")
res = {}
with tempfile.TemporaryDirectory() as tmp:
    for f in sorted(glob.glob(th + "/*.v")):
        src, n = open(f).read(), os.path.basename(f)[:-2]
        if not re.search(r"^ *Section ", src, re.M):
            continue
        open("%s/%s.v" % (tmp, n), "w").write("Set Suggest Proof Using. " + src)
        pr = subprocess.run(["coqc", "-q", "-Q", th, "Verif", "%s/%s.v" % (tmp, n)], capture_output=True, text=True)
        for name, cl in re.findall(r"The proof of (\w+) should start with one of the following commands:\s*Proof using ([^.]*)\.", pr.stdout + pr.stderr):
            res[n + "." + name] = cl.strip() or "Type"
json.dump(res, open(os.path.join(sys.argv[1], "using.json"), "w"))
print(len(res))
