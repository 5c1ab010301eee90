#!/usr/bin/env python3
"""Test theorems against a wrong program.

usage: mutate.py BASE SCRATCH SPEC.json   (BASE: a built copy of rocq/, SCRATCH: directory for the edited copy)

SPEC: {"id", "file", "old", "new", "claim", "targets": ["PropX", ...]}, and possibly "more": [[file, old, new], ...] and "stop".  The edit is applied to the copy and everything the
targets need is recompiled.  A proof that no longer goes through is replaced by Admitted (in the scratch copy only); at the end
Print Assumptions tells which property theorems rest on such a proof.  Prints one JSON line.
BASE/using.json comes from gen_using.py."""
import json, os, re, shutil, subprocess, sys, time

def deps(th):
    out = subprocess.run("coqdep -Q . Verif *.v", shell=True, cwd=th, capture_output=True, text=True).stdout
    d = {}
    for l in out.splitlines():
        m = re.match(r"(\w+)\.vo .*?: (\w+)\.v (.*)", l)
        if m:
            d[m.group(1)] = [x[:-3] for x in m.group(3).split() if x.endswith(".vo") and "/" not in x]
    return d

USING = {}

def sentences_bad(f, src, pos):
    """Replace the proof containing offset pos by Admitted; returns (new source, name) or None."""
    heads = [m for m in re.finditer(r"^(?:Local |Global )?(?:Lemma|Theorem|Example|Corollary|Fact|Remark|Proposition)\s+(\w+)", src, re.M) if m.start() <= pos]
    if not heads:
        return None
    h = heads[-1]
    p = re.search(r"\bProof\b", src[h.end():])
    if not p:
        return None
    ps = h.end() + p.start()
    q = re.search(r"\b(Qed|Defined|Admitted)\.", src[ps:])
    qe = ps + q.end()
    if not (ps <= pos <= qe):
        return None
    cl = USING.get(f + "." + h.group(1))
    return src[:ps] + ("Proof using %s. " % cl if cl else "") + "Admitted." + src[qe:], h.group(1)

def offset(src, line, ch):
    b = src.encode()
    lines = b.split(b"\n")
    o = sum(len(x) + 1 for x in lines[:line - 1]) + ch
    return len(b[:o].decode(errors="ignore"))

def compile_file(th, f, limit):
    admitted = []
    while True:
        t = time.time()
        pr = subprocess.run(["timeout", str(limit), "coqc", "-q", "-time", "-Q", ".", "Verif", f + ".v"], cwd=th, capture_output=True, text=True)
        if pr.returncode == 0:
            return admitted, None
        src = open(os.path.join(th, f + ".v")).read()
        m = re.search(r'File "\./%s\.v", line (\d+), characters (\d+)-(\d+):\s*\nError' % f, pr.stderr) or re.search(r'File "\./%s\.v", line (\d+), characters (\d+)-(\d+):' % f, pr.stderr)
        if m:
            pos = offset(src, int(m.group(1)), int(m.group(2)))
        else:
            c = re.findall(r"^Chars \d+ - (\d+)", pr.stdout, re.M)
            pos = len(src.encode()[:int(c[-1])].decode(errors="ignore")) + 2 if c else 0
        r = sentences_bad(f, src, pos)
        if r is None:
            return admitted, "%s.v: %s" % (f, (pr.stderr or "timeout")[-300:])
        open(os.path.join(th, f + ".v"), "w").write(r[0])
        admitted.append((f, r[1]))

def main():
    base, scratch, spec = sys.argv[1:4]
    spec = json.load(open(spec))
    if os.path.exists(base + "/using.json"):
        USING.update(json.load(open(base + "/using.json")))
    shutil.rmtree(scratch, ignore_errors=True)
    shutil.copytree(base, scratch)
    th = os.path.join(scratch, "theories")
    edits = [(spec["file"], spec["old"], spec["new"])] + [tuple(e) for e in spec.get("more", [])]
    for file, old, new in edits:
        fn = os.path.join(th, file + ".v")
        src = open(fn).read()
        assert src.count(old) == 1, (spec["id"], src.count(old))
        open(fn, "w").write(src.replace(old, new))
    d = deps(th)
    edited = {e[0] for e in edits}
    down, order, bad, ill, failed, ok = set(edited), [], [], None, [], []
    t0 = time.time()
    def visit(x, new):
        if x in order: return
        for y in d[x]: visit(y, new)
        order.append(x); new.append(x)
    # all targets at once, or with "stop" one after the other until a theorem fails
    for group in ([[p] for p in spec["targets"]] if spec.get("stop") else [spec["targets"]]):
        new = []
        for x in sorted(group): visit(x, new)
        for x in new:
            if x in edited or any(y in down for y in d[x]):
                down.add(x)
                a, ill = compile_file(th, x, 900)
                bad += a
                if ill: break
        if ill: break
        names = {n for _, n in bad}
        for p in group:
            if p not in down: continue
            th_names = re.findall(r"^Theorem (C\d+_\w+)", open(os.path.join(th, p + ".v")).read(), re.M)
            q = os.path.join(scratch, "q.v")
            open(q, "w").write("From Verif Require %s.\n" % p + "".join("Check tt. Print Assumptions %s.%s.\n" % (p, n) for n in th_names))
            out = subprocess.run(["coqc", "-Q", th, "Verif", q], capture_output=True, text=True).stdout
            parts = re.split(r"^tt\s*\n\s*: unit\n", out, flags=re.M)[1:]
            for n, s in zip(th_names, parts):
                ax = {a.split(".")[-1] for a in re.findall(r"^([A-Za-z_][\w.']*)\s*:", s, re.M)}
                (failed if n in names or ax & names else ok).append(n)
        if failed and spec.get("stop"): break
    print(json.dumps({"id": spec["id"], "broken_lemmas": ["%s.%s" % b for b in bad], "failed": failed, "still_proved": ok, "ill_formed": ill, "seconds": round(time.time() - t0)}))
    shutil.rmtree(scratch, ignore_errors=True)

main()
