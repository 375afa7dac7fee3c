#!/usr/bin/env python3
"""Regenerate MANIFEST.json from the theorem names in rocq/theories/*Properties.v.

A theorem named C05_... or C12_C13_... belongs to those properties.  A property
with a `_partial` or `_refuted` theorem is "partial", otherwise "proved".  Notes
come from tools/notes.json.
"""
import glob, json, os, re

root = os.path.dirname(os.path.dirname(os.path.abspath(__file__)))
notes = json.load(open(os.path.join(root, 'tools', 'notes.json')))
thms = {}
for f in sorted(glob.glob(os.path.join(root, 'rocq/theories/*Properties.v'))):
    for m in re.finditer(r'^Theorem\s+((?:C\d\d\d?_)+)(\w+)', open(f).read(), re.M):
        name = m.group(1) + m.group(2)
        for cid in re.findall(r'C\d\d\d?', m.group(1)):
            thms.setdefault(cid, []).append(name)
claims = []
for line in open(os.path.join(root, 'properties.jsonl')):
    cid = json.loads(line)['id']
    names = thms.get(cid, [])
    if not names:
        status = 'partial'
        note = notes.get(cid, 'Not modelled yet; no theorem.')
    else:
        status = 'partial' if any(n.endswith('_partial') or n.endswith('_refuted') for n in names) else 'proved'
        note = notes.get(cid, '')
    claims.append({'property': cid, 'status': status, 'theorems': names, 'note': note})
json.dump({'claims': claims}, open(os.path.join(root, 'MANIFEST.json'), 'w'), indent=1)
print({s: sum(c['status'] == s for c in claims) for s in ('proved', 'partial', 'not_applicable')},
      'without theorem:', [c['property'] for c in claims if not c['theorems']])
