#!/usr/bin/env python3
"""Regenerates MANIFEST.json from the theorem names in rocq/theories/P_*.v and
the notes below.  A theorem named C07_... belongs to property C07."""
import glob, json, re, os
root = os.path.dirname(os.path.dirname(os.path.abspath(__file__)))
notes = json.load(open(os.path.join(root, 'tools', 'notes.json')))
thms = {}
for f in sorted(glob.glob(os.path.join(root, 'rocq/theories/P_*.v'))):
    for m in re.finditer(r'^Theorem\s+((C\d+)_\w+)', open(f).read(), re.M):
        thms.setdefault(m.group(2), []).append(m.group(1))
claims = []
for line in open(os.path.join(root, 'properties.jsonl')):
    p = json.loads(line)['id']
    ts = thms.get(p, [])
    n = notes.get(p, {})
    status = n.get('status') or ('proved' if ts else 'partial')
    if not ts:
        continue
    if any(t.endswith('_partial') or t.endswith('_refuted') for t in ts) and 'status' not in n:
        status = 'partial'
    claims.append({'property': p, 'status': status, 'theorems': ts, 'note': n.get('note', '')})
json.dump({'claims': claims}, open(os.path.join(root, 'MANIFEST.json'), 'w'), indent=1)
print(len(claims), 'claims', sum(len(c['theorems']) for c in claims), 'theorems')
