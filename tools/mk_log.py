#!/usr/bin/env python3
"""Converts results of the mutation runs (JSON lines) to seeded/LOG.jsonl entries (appends new ids)."""
import json, sys, re, glob, os
LOG = '/verif/seeded/LOG.jsonl'
thm = {}
for p in sorted(glob.glob('/verif/rocq/theories/Properties*.v')):
    for m in re.finditer(r'^(?:Theorem|Corollary)\s+(C\d\d)(\w*)', open(p).read(), re.M):
        thm.setdefault(os.path.basename(p)[:-2], []).append(m.group(1) + m.group(2))
have = set()
if os.path.exists(LOG):
    have = {json.loads(l)['id'] for l in open(LOG)}
tight = {}
if os.path.exists('/verif/tools/tightened.json'):
    tight = json.load(open('/verif/tools/tightened.json'))
with open(LOG, 'a') as out:
    for f in sys.argv[1:]:
        for l in open(f):
            d = json.loads(l)
            if d['id'] in have: continue
            unb = set(d['unbuilt'])
            ids = re.findall(r'C\d\d', d['claim'])
            failed = [t for fl, ts in thm.items() if fl in unb for t in ts if t[:3] in ids]
            out.write(json.dumps(dict(id=d['id'], definition=d['defn'], edit=d['edit'], claim_broken=d['claim'],
                theorems_failed=failed, first_failures=['%s.%s' % (x[0], x[1]) for x in d['fails']],
                survived=d['survived'], theorems_tightened=tight.get(d['id'], []))) + '\n')
