#!/usr/bin/env python3
"""Writes seeded/LOG.jsonl from the result files of tools/mutate.py (arguments), tools/lognotes.py and seeded/refutations.
Result lines are also kept in seeded/results.jsonl, so that the log can be extended without the scratch directories."""
import sys, os, re, json
V = os.path.dirname(os.path.dirname(os.path.abspath(__file__)))
sys.path.insert(0, V+'/tools')
import lognotes
store = V+'/seeded/results.jsonl'
res = {}
for f in [store]+sys.argv[1:]:
    if os.path.exists(f):
        for l in open(f):
            r = json.loads(l)
            if r.get('error'): continue
            k = r['id']
            # a repeated run after a change of the theorems: keep the first one as well
            if k in res and not res[k]['fails'] and r['fails']: res[k] = dict(r, earlier='survived')
            elif k in res and res[k].get('earlier'): pass
            else: res[k] = r
with open(store, 'w') as f:
    for k in sorted(res): f.write(json.dumps(res[k])+'\n')
n = 0
with open(V+'/seeded/LOG.jsonl', 'w') as f:
    for k in sorted(res):
        r = res[k]; claims = re.findall(r'C\d\d', r['claim'])
        own = [t for t in r['theorems'] if t[:3] in claims]
        d = dict(id=k, definition='%s: %s' % (r['file'], r['definition']), edit=r['edit'], old=r['old'], new=r['new'],
                 claim=r['claim'], failed_proofs=r['fails'],
                 theorems_failed=own or r['theorems'][:12],
                 theorems_resting_on_failed_proofs=len(r['theorems']),
                 tightened=lognotes.TIGHTENED.get(k, []))
        if not r['fails']: d['survived'] = True
        if os.path.exists(V+'/seeded/refutations/%s.txt' % k): d['statement_refuted_in'] = 'seeded/refutations/%s.txt' % k
        if k in lognotes.NOTE: d['note'] = lognotes.NOTE[k]
        f.write(json.dumps(d)+'\n'); n += 1
print(n, 'lines;', [k for k in sorted(res) if not res[k]['fails']], 'survived;', 'own claim not among the failed:', [k for k in sorted(res) if res[k]['fails'] and not [t for t in res[k]['theorems'] if t[:3] in re.findall(r'C\d\d', res[k]['claim'])]])
