#!/usr/bin/env python3
"""MANIFEST.json from the theorem names in rocq/theories/Prop_*.v and the notes below."""
import glob, json, re, os
root = os.path.dirname(os.path.dirname(os.path.abspath(__file__)))
thms = {}
for f in sorted(glob.glob(root + '/rocq/theories/Prop_*.v')):
    for m in re.finditer(r'^Theorem\s+((C\d\d\d?)_\w+)', open(f).read(), re.M):
        thms.setdefault(m.group(2), []).append(m.group(1))
notes = json.load(open(root + '/tools/notes.json'))
claims = []
for l in open(root + '/properties.jsonl'):
    c = json.loads(l)['id']
    ts = thms.get(c, [])
    n = notes.get(c, {})
    status = n.get('status') or ('proved' if ts and not any(t.endswith(('_partial', '_refuted')) for t in ts) else 'partial')
    claims.append({'property': c, 'status': status, 'theorems': ts, 'note': n.get('note', '' if ts else 'not proved yet')})
json.dump({'claims': claims}, open(root + '/MANIFEST.json', 'w'), indent=1)
for c in claims: print(c['property'], c['status'], len(c['theorems']), c['note'][:60])
