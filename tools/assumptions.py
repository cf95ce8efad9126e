#!/usr/bin/env python3
"""Print Assumptions for every theorem of MANIFEST.json; writes ASSUMPTIONS.md (needs a built tree)."""
import json, os, re, subprocess, sys, collections
root = os.path.dirname(os.path.dirname(os.path.abspath(__file__)))
th = os.path.join(root, 'rocq', 'theories')
names = [t for c in json.load(open(os.path.join(root, 'MANIFEST.json')))['claims'] for t in c['theorems']]
mod = {}
for f in sorted(os.listdir(th)):
    if f.startswith('P_') and f.endswith('.v'):
        for n in re.findall(r'^Theorem (C\d+_\w+)', open(os.path.join(th, f)).read(), re.M):
            mod[n] = f[:-2]
tmp = '/tmp/asm'; os.makedirs(tmp, exist_ok=True)
src = ''.join('Require Verif.%s.\n' % m for m in sorted(set(mod.values())))
for n in names:
    src += 'Goal True. idtac "@@ %s". exact I. Qed.\nPrint Assumptions Verif.%s.%s.\n' % (n, mod[n], n)
open(tmp + '/A.v', 'w').write(src)
out = subprocess.run(['coqc', '-Q', th, 'Verif', 'A.v'], cwd=tmp, capture_output=True, text=True).stdout
res = collections.OrderedDict()
for part in out.split('@@ ')[1:]:
    n, _, body = part.partition('\n')
    ax = sorted(set(re.findall(r'^(\S+)\s*(?::|$)', body.replace('Axioms:', ''), re.M)) - {''})
    res[n.strip()] = [] if 'Closed under' in body else [a for a in ax if re.match(r'[A-Za-z_.]+$', a)]
groups = collections.OrderedDict()
for n in names:
    groups.setdefault(tuple(res[n]), []).append(n)
with open(os.path.join(root, 'ASSUMPTIONS.md'), 'w') as f:
    f.write('# Print Assumptions, theorem by theorem\n\nGenerated by tools/assumptions.py from the compiled theories.\n')
    for ax, ns in sorted(groups.items()):
        f.write('\n## %s\n\n%s\n' % (', '.join('`%s`' % a for a in ax) or 'Closed under the global context', ', '.join(ns)))
print({ax: len(ns) for ax, ns in groups.items()})
