#!/usr/bin/env python3
"""Writes AXIOMS.md: what Print Assumptions lists for every property theorem (run after a build)."""
import glob, os, re, subprocess, tempfile
here = os.path.dirname(os.path.dirname(os.path.abspath(__file__)))
th = os.path.join(here, "rocq", "theories")
rows, sets = [], {}
for f in sorted(glob.glob(th + "/Prop*.v")):
    m = os.path.basename(f)[:-2]
    names = re.findall(r"^Theorem (C\d+_\w+)", open(f).read(), re.M)
    with tempfile.TemporaryDirectory() as d:
        v = os.path.join(d, "q.v")
        with open(v, "w") as o:
            o.write("From Verif Require %s.\n" % m)
            for n in names:
                o.write('Check tt. Print Assumptions %s.%s.\n' % (m, n))
        out = subprocess.run(["coqc", "-Q", th, "Verif", v], capture_output=True, text=True, check=True).stdout
    parts = re.split(r"^tt\s*\n\s*: unit\n", out, flags=re.M)[1:]
    assert len(parts) == len(names), (m, len(parts), len(names))
    for n, p in zip(names, parts):
        ax = re.findall(r"^([A-Za-z_][\w.']*)\s*:", p, re.M) if "Axioms:" in p else []
        ax = [a for a in ax if a != "Axioms"]
        key = tuple(ax)
        rows.append((n, m, sets.setdefault(key, "closed" if not ax else "A%d" % len([k for k in sets if k] + [1]))))
with open(os.path.join(here, "AXIOMS.md"), "w") as o:
    o.write("# Print Assumptions per property theorem\n\nGenerated by tools/gen_axioms.py.  `closed` = \"Closed under the global context\".\n\n")
    for k, l in sets.items():
        if k:
            o.write("**%s** (primitive 63-bit integers of `Coq.Numbers.Cyclic.Int63` and their specifications):\n`%s`\n\n" % (l, "`, `".join(k)))
    o.write("| theorem | file | assumptions |\n|---|---|---|\n")
    for n, m, l in sorted(rows):
        o.write("| %s | %s | %s |\n" % (n, m, l))
print(len(rows), {l: len(k) for k, l in sets.items()})
