#!/usr/bin/env python3
"""Compiles every rocq/theories/P_*.v (the rest must be built) and rewrites the
section of DESIGN.md between the ASSUMPTIONS markers with what Print Assumptions
lists for each theorem."""
import glob, os, re, subprocess
root = os.path.dirname(os.path.dirname(os.path.abspath(__file__)))
th = os.path.join(root, 'rocq/theories')
groups, count = {}, 0
for f in sorted(glob.glob(os.path.join(th, 'P_*.v'))):
    names = re.findall(r'^Print Assumptions (\w+)\.', open(f).read(), re.M)
    out = subprocess.run(['coqc', '-Q', '.', 'Verif', os.path.basename(f)], cwd=th, capture_output=True, text=True, check=True).stdout
    blocks, cur = [], None
    for line in out.splitlines():
        if line.startswith('Closed under the global context'):
            blocks.append(()); cur = None
        elif line.startswith('Axioms:'):
            cur = []; blocks.append(cur)
        elif cur is not None:
            m = re.match(r'^([A-Za-z_][\w.\']*)\s*(:|$)', line)
            if m: cur.append(m.group(1))
    assert len(blocks) == len(names), (f, len(blocks), len(names))
    for n, b in zip(names, blocks):
        groups.setdefault(tuple(sorted(set(b))), []).append(n); count += 1
text = ['<!-- ASSUMPTIONS BEGIN (tools/assumptions.py) -->', '']
for axs, ns in sorted(groups.items(), key=lambda kv: len(kv[0])):
    title = 'Closed under the global context (no axiom)' if not axs else ', '.join('`%s`' % a for a in axs)
    text += ['* **%s** (%d theorems): %s' % (title, len(ns), ', '.join(ns)), '']
text += ['<!-- ASSUMPTIONS END -->']
p = os.path.join(root, 'DESIGN.md')
s = open(p).read()
s = re.sub(r'<!-- ASSUMPTIONS BEGIN.*?<!-- ASSUMPTIONS END -->', lambda m: '\n'.join(text), s, flags=re.S)
open(p, 'w').write(s)
print(count, 'theorems', [(len(k), len(v)) for k, v in groups.items()])
