#!/usr/bin/env python3
"""seeded/LOG.jsonl from seeded/mutants.json, seeded/tightened.json and result directories.
Usage: log.py RESULTS_DIR ...   (one line per mutant and round; later directories are later rounds)"""
import sys, os, json
root = os.path.dirname(os.path.dirname(os.path.abspath(__file__)))
M = json.load(open(root + '/seeded/mutants.json'))
T = json.load(open(root + '/seeded/tightened.json'))
N = json.load(open(root + "/seeded/notes.json"))   # survivors and mutants the harness could not build
with open(root + '/seeded/LOG.jsonl', 'w') as f:
    for rnd, d in enumerate(sys.argv[1:], 1):
        for m in M:
            p = f"{d}/{m['id']}.json"
            if not os.path.exists(p): continue
            r = json.load(open(p))
            edits = m.get('edits') or [[m['old'], m['new']]]
            rec = dict(round=rnd, id=m['id'], file='theories/%s.v' % m['file'], definition=m['definition'],
                       edit=[dict(old=a, new=b) for a, b in edits], claim_broken=m['claim'], properties=m.get('claim_ids', []),
                       theorems_failed=r['failed'], first_proofs_broken=r['broken'][:6])
            if r.get('error'): rec['note'] = r['error'].strip().split('\n')[-1][:200]
            if not r['failed'] and m['id'] in N: rec['note'] = N[m['id']]
            if r.get('missed'):
                rec['still_proved_although_false'] = r['missed']
            rec['theorems_tightened'] = T.get(m['id'], []) if r.get('missed') else []
            f.write(json.dumps(rec) + '\n')
