#!/usr/bin/env python3
"""Regenerates MANIFEST.json: theorem cNN_... of a Prop*.v file belongs to property CNN."""
import glob, json, os, re
root = os.path.dirname(os.path.dirname(os.path.abspath(__file__)))
notes = json.load(open(os.path.join(root, 'tools', 'notes.json')))
thms = {}
for f in sorted(glob.glob(os.path.join(root, 'rocq/theories/Prop*.v'))):
    for m in re.finditer(r'^(?:Theorem|Corollary)\s+(c(\d+)_\w+)', open(f).read(), re.M):
        thms.setdefault('C' + m.group(2), []).append(m.group(1))
claims = []
for line in open(os.path.join(root, 'properties.jsonl')):
    p = json.loads(line)['id']
    ts = thms.get(p, [])
    n = notes.get(p, {})
    status = n.get('status', 'proved' if ts else 'partial')
    claims.append({'property': p, 'status': status, 'theorems': ts,
                   'note': n.get('note', '' if ts else 'not done yet')})
json.dump({'claims': claims}, open(os.path.join(root, 'MANIFEST.json'), 'w'), indent=1)
print(sum(1 for c in claims if c['theorems']), 'properties with theorems,', sum(map(len, thms.values())), 'theorems')
