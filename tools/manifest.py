#!/usr/bin/env python3
"""Regenerate rocq/_CoqProject's file list and MANIFEST.json from the P_*.v files.
Status and notes per property come from tools/notes.json (default: proved)."""
import os, re, json
root = os.path.dirname(os.path.dirname(os.path.abspath(__file__)))
th = os.path.join(root, 'rocq', 'theories')
files = sorted(f for f in os.listdir(th) if f.endswith('.v'))
open(os.path.join(root, 'rocq', '_CoqProject'), 'w').write(
    '-Q theories Verif\n' + ''.join('theories/%s\n' % f for f in files))
thms = {}
for f in files:
    if not f.startswith('P_'):
        continue
    for m in re.finditer(r'^Theorem (C\d+)_(\w+)', open(os.path.join(th, f)).read(), re.M):
        thms.setdefault(m.group(1), []).append('Verif.%s.%s_%s' % (f[:-2], m.group(1), m.group(2)))
notes = json.load(open(os.path.join(root, 'tools', 'notes.json')))
claims = []
for line in open(os.path.join(root, 'properties.jsonl')):
    p = json.loads(line)
    i = p['id']
    n = notes.get(i, {})
    names = [x.split('.')[-1] for x in thms.get(i, [])]
    st = n.get('status') or ('proved' if names else 'partial')
    note = n.get('note') or ('' if names else 'not yet modelled')
    claims.append({"property": i, "status": st, "theorems": names, "note": note})
json.dump({"claims": claims}, open(os.path.join(root, 'MANIFEST.json'), 'w'), indent=1)
print(sum(1 for c in claims if c['theorems']), 'of', len(claims), 'with theorems')
