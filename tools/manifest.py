#!/usr/bin/env python3
"""Regenerate MANIFEST.json from the theorem names in rocq/theories/Props*.v."""
import glob, json, os, re
root = os.path.dirname(os.path.dirname(os.path.abspath(__file__)))
thms = {}
for f in sorted(glob.glob(root + '/rocq/theories/Props*.v')):
    for n in re.findall(r'^Theorem (C\d\d+_\w+)', open(f).read(), re.M):
        thms.setdefault(n.split('_')[0], []).append(n)
notes = json.load(open(root + '/tools/notes.json'))
claims = []
for line in open(root + '/properties.jsonl'):
    p = json.loads(line)['id']
    ts = thms.get(p, [])
    n = notes.get(p, {})
    status = n.get('status', 'proved') if ts else 'partial'
    if any(t.endswith('_partial') for t in ts) and not n.get('status'):
        status = 'partial'
    note = n.get('note', '') or ('' if ts else 'modelled; no theorem yet')
    claims.append({'property': p, 'status': status, 'theorems': ts, 'note': note})
json.dump({'claims': claims}, open(root + '/MANIFEST.json', 'w'), indent=1)
print(sum(len(c['theorems']) for c in claims), 'theorems;', [c['property'] for c in claims if not c['theorems']])
