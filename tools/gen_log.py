"""Write seeded/LOG.jsonl from seeded/mutants.py and the results of tools/run_mutants.py (argument: result files)."""
import json, sys, os
here = os.path.dirname(os.path.dirname(os.path.abspath(__file__)))
ns = {}
exec(open(os.path.join(here, 'seeded', 'mutants.py')).read().split("\nif __name__")[0], ns)
auto = os.path.join(here, 'seeded', 'auto.jsonl')
if os.path.exists(auto):
    ns['MUTANTS'] += [json.loads(l) for l in open(auto)]
mutants = {m['id']: m for m in ns['MUTANTS']}
# theorems added or tightened because of a mutant
tightened = json.load(open(os.path.join(here, 'seeded', 'tightened.json')))
remarks = json.load(open(os.path.join(here, 'seeded', 'remarks.json')))
results = {}
for f in sys.argv[1:]:
    for line in open(f):
        r = json.loads(line)
        if not r['ill_formed']: # the edited model is not a program
            results.setdefault(r['id'], []).append(r)
with open(os.path.join(here, 'seeded', 'LOG.jsonl'), 'w') as out:
    for i, m in mutants.items():
        for n, r in enumerate(results.get(i, [])):
            out.write(json.dumps({
                'id': i + ('' if n == 0 else '-again'), 'definition': 'rocq/theories/%s.v: %s' % (m['file'], m['definition']),
                'edit': dict({'old': m['old'], 'new': m['new']}, **({'more': m['more']} if m['more'] else {})), 'claim': m['claim'],
                'failed': r['failed'], 'tightened': tightened.get(i, []) if n == 0 else [], **({'remark': remarks[i]} if i in remarks else {})}, ensure_ascii=False) + '\n')
