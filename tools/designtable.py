#!/usr/bin/env python3
"""Rewrite the generated table at the end of DESIGN.md from properties.jsonl and the sources."""
import glob, json, os, re
os.chdir('/verif')
where = {}
for f in sorted(glob.glob('rocq/theories/Prop*.v')):
    for m in re.finditer(r'^(?:Theorem|Corollary) (c(\d+)_\w+)', open(f).read(), re.M):
        where.setdefault('C%02d' % int(m.group(2)), []).append((m.group(1), os.path.basename(f)))
rows = ['| id | property | file | theorems |', '|---|---|---|---|']
for l in open('properties.jsonl'):
    d = json.loads(l)
    ts = where.get(d['id'], [])
    rows.append('| %s | %s | %s | %s |' % (d['id'], d['title'], ', '.join(sorted({f for _, f in ts})),
                                     ', '.join('`%s`' % t for t, _ in ts)))
s = open('DESIGN.md').read()
mark = '<!-- generated by tools/designtable.py -->'
s = s[:s.index(mark)] + mark + '\n\n' + '\n'.join(rows) + '\n'
open('DESIGN.md', 'w').write(s)
