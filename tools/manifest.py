#!/usr/bin/env python3
"""Writes MANIFEST.json from the theorem names in rocq/theories/Props*.v and the notes below."""
import re, json, glob
NOTES = json.load(open('/verif/tools/notes.json'))
thms = {}
for f in sorted(glob.glob('/verif/rocq/theories/Props*.v')):
    for n in re.findall(r'^Theorem\s+(C(\d+)_\w+)', open(f).read(), re.M):
        thms.setdefault('C' + n[1], []).append(n[0])
ids = [json.loads(l)['id'] for l in open('/verif/properties.jsonl')]
claims = []
for i in ids:
    t = thms.get(i, [])
    if not t:
        print('no theorem for', i); continue
    n = NOTES.get(i, {})
    status = n.get('status', 'partial' if any(x.endswith(('_partial', '_refuted')) for x in t) else 'proved')
    claims.append({'property': i, 'status': status, 'theorems': t, 'note': n.get('note', '')})
json.dump({'claims': claims}, open('/verif/MANIFEST.json', 'w'), indent=1)
print(len(claims), 'claims')
