#!/usr/bin/env python3
"""Writes MANIFEST.json from the theorem names in rocq/theories/Prop*.v and the notes in tools/notes.json.
A property is "partial" if one of its theorems ends in _partial or _refuted, or if the note says so."""
import glob, json, re, os
root = os.path.dirname(os.path.dirname(os.path.abspath(__file__)))
props = [json.loads(l) for l in open(root + "/properties.jsonl")]
notes = json.load(open(root + "/tools/notes.json"))
thms = {}
for f in sorted(glob.glob(root + "/rocq/theories/Prop*.v")):
    src = re.sub(r"\(\*.*?\*\)", "", open(f).read(), flags=re.S)
    for m in re.finditer(r"^(?:Theorem|Lemma|Corollary)\s+(C\d+)_(\w+)", src, flags=re.M):
        thms.setdefault(m.group(1), []).append(m.group(1) + "_" + m.group(2))
claims = []
for p in props:
    i = p["id"]; t = thms.get(i, []); n = notes.get(i, {})
    if not t:
        continue
    weak = any(x.endswith("_partial") or x.endswith("_refuted") for x in t)
    st = n.get("status") or ("partial" if weak else "proved")
    claims.append(dict(property=i, status=st, theorems=t, note=n.get("note", "")))
json.dump({"claims": claims}, open(root + "/MANIFEST.json", "w"), indent=1)
from collections import Counter
print(Counter(c["status"] for c in claims), "missing:", [p["id"] for p in props if p["id"] not in thms])
