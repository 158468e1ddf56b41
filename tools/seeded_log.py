#!/usr/bin/env python3
"""seeded_log.py RESULTS.jsonl TIGHTENED.json: write seeded/LOG.jsonl from the results of the wrong-program runs.
A result has the edited file, the edit, the claim it should break, the first failing lemmas and the property theorems
that depend on them.  TIGHTENED maps a run to the theorems added or strengthened because of it."""
import json, os, re, sys
root = os.path.dirname(os.path.dirname(os.path.abspath(__file__)))
DECL = re.compile(r'^(?:Definition|Fixpoint|Record|Inductive|Class|Instance)\s+([\w\']+)', re.M)


def enclosing(name, edit):
    """The definition of the model file [name] that contains the replaced text of "old -> new"."""
    path = os.path.join(root, 'rocq', 'theories', name + '.v')
    if not os.path.exists(path):
        return ''
    src = open(path).read()
    parts = edit.split(' -> ')
    for k in range(len(parts) - 1, 0, -1):
        old = ' -> '.join(parts[:k])
        at = src.find(old)
        if old and at >= 0:
            before = [m.group(1) for m in DECL.finditer(src) if m.start() <= at + len(old) - len(old.lstrip())]
            first = DECL.search(old)
            return before[-1] if before else (first.group(1) if first else '')
    return ''


tight = json.load(open(sys.argv[2]))
last = {}
for line in open(sys.argv[1]):
    r = json.loads(line)
    last[r['id']] = r
out = []
for i, r in last.items():
    if r.get('fatal'):
        continue
    note = tight.get(i, {})
    out.append({'definition': r['file'] + '.v: ' + (note.get('definition') or enclosing(r['file'], r['edit'])), 'edit': r['edit'], 'claim': r['claim'],
                'failed_lemmas': sorted({f'{f[0]}.{f[1]}' for f in r.get('failed', [])}),
                'failed_theorems': r.get('theorems', []), 'tightened': note.get('tightened', []),
                'note': note.get('note', '')})
    o = out[-1]
    o['definition'] = o['definition'].rstrip(': ')
    if not o['note']:
        del o['note']
with open(os.path.join(root, 'seeded', 'LOG.jsonl'), 'w') as f:
    for o in out:
        f.write(json.dumps(o) + '\n')
print(len(out), sum(1 for o in out if not o['failed_theorems']), 'without a failing theorem')
