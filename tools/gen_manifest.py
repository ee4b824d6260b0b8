#!/usr/bin/env python3
"""Writes MANIFEST.json from the theorems named C<nn>_... in rocq/theories/Prop*.v."""
import glob, json, os, re
root = os.path.dirname(os.path.dirname(os.path.abspath(__file__)))
names = {}
for f in sorted(glob.glob(root + '/rocq/theories/Prop*.v')):
    for m in re.finditer(r'^(?:Theorem|Corollary)\s+((C\d\d)_\w+)', open(f).read(), re.M):
        names.setdefault(m.group(2), []).append(m.group(1))
notes = json.load(open(root + '/tools/notes.json'))
claims = []
for line in open(root + '/properties.jsonl'):
    pid = json.loads(line)['id']
    note = notes.get(pid, {})
    ths = names.get(pid, [])
    if not ths and note.get('status') != 'not_applicable':
        print('no theorem yet:', pid)
        continue
    status = note.get('status') or ('partial' if any(t.endswith('_partial') for t in ths) else 'proved')
    claims.append({'property': pid, 'status': status, 'theorems': ths, 'note': note.get('note', '')})
json.dump({'claims': claims}, open(root + '/MANIFEST.json', 'w'), indent=1)
