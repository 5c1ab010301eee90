"""Write seeded/auto.jsonl: small edits (a comparison, a constant, a connective, an exception) of every definition of the model.
usage: auto_mutants.py PER_DEFINITION SEED [FILE ...]"""
import json, os, random, re, sys
here = os.path.dirname(os.path.dirname(os.path.abspath(__file__)))
th = os.path.join(here, "rocq/theories")
TARGETS = {
    "Base": "PropCodec PropJwt PropSym PropJwk PropJws PropJwe PropMisc PropMisc2 PropMore3 PropMore4 PropMore5 PropMore6 PropJwk2 PropText PropMore8 PropMore9",
    "Utf8": "PropCodec PropJwt PropJwk PropMore4 PropMore5 PropMore6 PropText",
    "Codec": "PropCodec PropJwt PropJwk PropMisc PropMore4 PropMore5 PropMore6 PropPbkdf2 PropText PropMore9",
    "Json": "PropJwt PropMisc2 PropJws PropMore4 PropMore5 PropMore6 PropText PropMore8 PropMore9",
    "Jwt": "PropJwt PropJws PropJwe PropMore4 PropMore5 PropMore6 PropText PropMore8",
    "Elliptic": "PropEc PropMore5 PropMore7 PropMore9 PropMore10",
    "Ecc": "PropEc PropMore PropMisc PropMore5 PropMore7 PropMore9 PropMore10",
    "KeyWrap": "PropSym PropJwe PropMore5",
    "Extra": "PropSym PropMore PropJwe PropMore5",
    "Gcm": "PropSym PropMore",
    "Jwk": "PropJwk PropJwk2 PropMisc PropMisc2 PropMore PropMore2 PropScript PropMore3 PropMore4 PropMore5 PropMore6 PropMore8 PropMore9",
    "Jws": "PropJws PropMore PropJwk2 PropMisc PropMore2 PropScript PropMore3 PropMore4 PropMore5 PropMore6 PropMore8 PropMore9",
    "Jwe": "PropJwe PropMore PropMore2 PropMisc PropScript PropMore3 PropMore4 PropMore5 PropMore6 PropMore9",
    "Misc": "PropMisc PropMisc2 PropMore PropMore2 PropScript PropMore4 PropMore5 PropMore6",
    "Misc2": "PropMisc2 PropJwk2 PropMore PropMore2 PropScript PropMore5 PropMore6",
    "Der": "PropMore2 PropMore3",
    "Pbkdf2": "PropPbkdf2 PropMore5 PropMore8",
    "Script": "PropScript PropMisc2 PropMore4 PropMore6"}
EDITS = [
    (r"<=\?", "<?"), (r"(?<!<)<\?", "<=?"), (r"=\?(?<!<=\?)", "<=?"), (r"&&", "||"), (r"\|\|", "&&"), (r"\bnegb \(", "("), (r"\bfirstn\b", "skipn"), (r"\bskipn\b", "firstn"),
    (r"\btrue\b", "false"), (r"\bfalse\b", "true"), (r"\bRaise EValueError\b", "Raise ETypeError"), (r"\bRaise E(?!ValueError)\w+", "Raise EValueError"),
    (r"\butf8_encode\b", "ascii_encode"), (r"\bSome _ =>", "None =>"), (r"\bmod\b", "/"), (r"(?<=[ (])\+ 1\b", "+ 2"), (r"(?<=[ (])- 1\b", "- 2"),
    (r"\bdset\b", "(fun d _ _ => d)"), (r"\bas_bytes\b", "Ok"), (r"\bOk \[\]", "Raise EValueError"), (r"\bSHA256\b", "SHA384"), (r"\bSHA384\b", "SHA512"), (r"\bSHA512\b", "SHA256"),
    (r"\bfst\b", "snd"), (r"\bsnd\b", "fst"), (r"\brev \(", "("), (r"\bapp_nil\b", ""), (r"\bVNone\b", "(VBool false)"), (r"\btruthy (\w+)", r"true"),
]
def changes(code):
    for a, b in EDITS:
        for m in re.finditer(a, code):
            yield m.start(), m.end(), m.expand(b)
    for m in re.finditer(r"(?<![\w.%\"])(\d+)(?![\w\"])", code):
        yield m.start(), m.end(), str(int(m.group(1)) + 1)
    for m in re.finditer(r"lit \"([^\"]*)\"", code):
        yield m.start(1), m.end(1), m.group(1) + "x"
def main():
    per, rnd = int(sys.argv[1]), random.Random(int(sys.argv[2]))
    out = []
    for f in sys.argv[3:] or TARGETS:
        src = open(os.path.join(th, f + ".v")).read()
        plain = re.sub(r"\(\*.*?\*\)", lambda m: re.sub(r"[^\n]", " ", m.group(0)), src, flags=re.S)
        heads = list(re.finditer(r"^(?:Definition|Fixpoint|with)\s+(\w+)", plain, re.M))
        for h in heads:
            e = re.search(r"\.\s*\n(?=\s*(?:\n|Definition|Fixpoint|Lemma|Record|Inductive|Section|End|with|Variable|Context|Arguments|Notation|\Z))|\.\s*\Z", plain[h.end():])
            if not e: continue
            body = h.end(), h.end() + e.end()
            asg = plain.find(":=", *body)
            if asg < 0: continue
            cs = [(a + asg, b + asg, n) for a, b, n in changes(plain[asg:body[1]])]
            rnd.shuffle(cs)
            for k, (a, b, n) in enumerate(cs[:per]):
                lo, hi = a, b
                while src.count(src[lo:hi]) != 1 or hi - lo < 30:
                    lo, hi = max(0, lo - 8), min(len(src), hi + 8)
                out.append(dict(id="auto-%s-%s-%s-%d" % (sys.argv[2], f, h.group(1), k), definition=h.group(1), file=f, old=src[lo:hi], new=src[lo:a] + n + src[b:hi],
                                claim="what %s computes" % h.group(1), expect=[], targets=TARGETS[f].split(), more=[], stop=True))
    with open(os.path.join(here, "seeded/auto.jsonl"), "a") as o:
        for m in out: o.write(json.dumps(m, ensure_ascii=False) + "\n")
    print(len(out))
main()
