#!/usr/bin/env python3
"""Writes rocq/theories/Certs.v from a table of Pocklington certificates (tools/certs.json:
list of [n, base, [[prime factor of n-1, exponent], ...]]) and the curve table of curves.py."""
import json, os, re
from domains import domains
here = os.path.dirname(os.path.abspath(__file__))
certs = json.load(open(os.path.join(here, 'certs.json')))
D = domains()
out = ['(** Generated by tools/gen_certs.py: primality certificates (Pocklington, and Morrison for one of them) for the NIST field primes and group orders. *)',
       'From Coq Require Import ZArith Znumtheory List.', 'From Verif Require Import Pock PockCheck Lucas.',
       'Import ListNotations.', 'Open Scope Z_scope.', '']
table = {int(n): (a, [(int(p), e) for p, e in fs]) for n, a, fs in certs}
done = set()
def emit(n):
    if n in done: return
    done.add(n)
    if n not in table:
        assert n < 1000
        out.append('Lemma prime_%d : prime %d. Proof. apply small_prime_ok. vm_compute. reflexivity. Qed.' % (n, n))
        return
    a, fs = table[n]
    for p, e in fs: emit(p)
    if isinstance(a, list):  # a certificate using a factor of n + 1: ['plus', D, a, b]
        out.append('Lemma prime_%d : prime %d.\nProof. apply (check_morrison_ok _ %d %d %s %s); [vm_compute; reflexivity|exact prime_%d]. Qed.'
                   % (n, n, fs[0][0], a[1], a[2], a[3], fs[0][0]))
        return
    lst = '; '.join('(%d, %d)' % (p, e) for p, e in fs)
    out.append('Lemma prime_%d : prime %d.\nProof. apply (check_pock_ok _ %d [%s]); [vm_compute; reflexivity|].\n  repeat (apply Forall_cons; [cbn [fst]|]); [%s|apply Forall_nil]. Qed.'
               % (n, n, a, lst, '|'.join('exact prime_%d' % p for p, e in fs)))
names = []
for b in (192, 224, 256, 384, 521):
    for i, nm in ((0, 'p'), (1, 'n')):
        v = D[b][i]
        if v in table:
            emit(v)
            out.append('(** curves.py: %s of the %d-bit curve *)\nLemma prime_%s%d : prime %s. Proof. exact prime_%d. Qed.' % (
                'field prime' if i == 0 else 'group order', b, nm, b, hex(v), v))
open(os.path.join(here, '../rocq/theories/Certs.v'), 'w').write('\n'.join(out) + '\n')
