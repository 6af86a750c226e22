#!/usr/bin/env python3
"""Regenerate MANIFEST.json from the theorem names (Cxx_...) in rocq/theories/Prop*.v."""
import json, re, glob, os
root = os.path.dirname(os.path.dirname(os.path.abspath(__file__)))
ths = {}
for f in sorted(glob.glob(root + '/rocq/theories/Prop*.v')):
    for m in re.finditer(r'^(?:Theorem|Corollary)\s+((C\d+)_\w+)', open(f).read(), re.M):
        ths.setdefault(m.group(2), []).append((m.group(1), os.path.basename(f)))
notes = json.load(open(root + '/tools/notes.json'))
claims = []
for line in open(root + '/properties.jsonl'):
    p = json.loads(line)['id']
    t = ths.get(p, [])
    n = notes.get(p, {})
    status = n.get('status', 'proved') if t else n.get('status', None)
    if status is None:
        continue
    files = sorted({x[1] for x in t})
    claims.append({'property': p, 'status': status, 'theorems': [x[0] for x in t],
                   'note': (n.get('note', '') + (' [' + ', '.join(files) + ']' if files else '')).strip()})
json.dump({'claims': claims}, open(root + '/MANIFEST.json', 'w'), indent=1)
print(len(claims), 'claims,', sum(len(c['theorems']) for c in claims), 'theorems')
missing = [json.loads(l)['id'] for l in open(root + '/properties.jsonl')]
print('missing:', [p for p in missing if p not in {c['property'] for c in claims}])
