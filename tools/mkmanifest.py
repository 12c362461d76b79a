#!/usr/bin/env python3
"""Write MANIFEST.json from the theorem names in rocq/theories/P_*.v.

A theorem named Cnn_... belongs to property Cnn.  Notes and exceptions are below.
"""
import glob, json, os, re
here = os.path.dirname(os.path.abspath(__file__))
root = os.path.dirname(here)
thms = {}
for f in sorted(glob.glob(os.path.join(root, 'rocq/theories/P_*.v'))):
    for m in re.finditer(r'^Theorem\s+((C\d\d+)_\w+)', open(f).read(), re.M):
        thms.setdefault(m.group(2), []).append(m.group(1))
notes = json.load(open(os.path.join(here, 'notes.json')))
claims = []
for line in open(os.path.join(root, 'properties.jsonl')):
    pid = json.loads(line)['id']
    t = thms.get(pid, [])
    n = notes.get(pid, {})
    if isinstance(n, str):
        n = {'note': n}
    status = n.get('status') or ('proved' if t else 'partial')
    note = n.get('note', '')
    if not t:
        note = 'no theorem yet. ' + note
    claims.append({'property': pid, 'status': status, 'theorems': t, 'note': note.strip()})
json.dump({'claims': claims}, open(os.path.join(root, 'MANIFEST.json'), 'w'), indent=1)
print({c['property']: (c['status'], len(c['theorems'])) for c in claims})
