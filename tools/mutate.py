#!/usr/bin/env python3
"""Seeded-bug harness.  Usage: mutate.py MUTANTS.json [ID ...]
Each mutant {id, file, definition, old, new, claim} is applied to a scratch copy of
rocq/theories outside /verif; the files depending on the edited one are recompiled.  A proof
that breaks is replaced (in the scratch copy only) by Admitted and the build goes on, so that
the Print Assumptions output at the end tells for every theorem whether it still stands.
Results go to $RES/ID.json (default /tmp/mut/results)."""
import sys, os, re, json, subprocess, shutil, time
from concurrent.futures import ThreadPoolExecutor
SRC = os.environ.get('SRC', '/verif/rocq/theories'); MUT = '/tmp/mut'; RES = os.environ.get('RES', '/tmp/mut/results'); JOBS = int(os.environ.get('JOBS', '4'))

def deps():
    out = subprocess.run('coqdep -Q . Verif *.v', shell=True, cwd=SRC, capture_output=True, text=True).stdout
    d = {}
    for l in out.split('\n'):
        m = re.match(r'(\w+)\.vo [^:]*: (.*)', l)
        if m: d[m[1]] = [x[:-3] for x in m[2].split() if x.endswith('.vo') and '/' not in x]
    return d

def order(d):
    seen, out = set(), []
    def go(f):
        if f in seen: return
        seen.add(f)
        for g in d[f]: go(g)
        out.append(f)
    for f in sorted(d): go(f)
    return out

STMT = re.compile(r'^\s*(?:Local |Global )?(Lemma|Theorem|Corollary|Example|Fact|Remark|Instance|Definition|Fixpoint|Ltac|Inductive|Record)\s+(\w+)', re.M)

def find_proof(text, pos):
    last = None
    for m in STMT.finditer(text):
        if m.start() > pos: break
        last = m
    if last is None: return None
    kind, name = last[1], last[2]
    end = re.compile(r'\b(Qed|Defined|Admitted)\.').search(text, last.end())
    pr = re.compile(r'\bProof\b[^.]*\.').search(text, last.end())
    if not end or not pr or pr.start() > end.start() or pos > end.end(): return None
    return name, kind, pr.start(), end.end()

def run(mu, D, O):
    t0 = time.time()
    w = f"{MUT}/w_{mu['id']}"
    shutil.rmtree(w, ignore_errors=True); shutil.copytree(SRC, w, ignore=shutil.ignore_patterns('*.aux', '*.glob', '.*'))
    f = mu['file']; p = f'{w}/{f}.v'; s = open(p).read()
    edits = mu.get('edits') or [[mu['old'], mu['new']]]
    for a, b in edits:
        if s.count(a) != 1: return dict(id=mu['id'], error=f'pattern occurs {s.count(a)} times: {a[:60]}')
        s = s.replace(a, b)
    open(p, 'w').write(s)
    aff = {f}
    for g in O:
        if any(x in aff for x in D[g]): aff.add(g)
    if mu.get('scope'):          # only what these P_ files need
        need, st = set(), list(mu['scope'])
        while st:
            x = st.pop()
            if x not in need: need.add(x); st += D[x]
        aff &= need
    broken, assum, err = [], {}, None
    for g in [x for x in O if x in aff]:
        for _ in range(80):
            try:
                r = subprocess.run(['bash', '-c', f'ulimit -v 6000000; exec timeout 400 coqc -time -Q . Verif {g}.v'], cwd=w, capture_output=True, text=True)
            except Exception as e:
                err = str(e); break
            if r.returncode == 0: break
            text = open(f'{w}/{g}.v', 'rb').read().decode()
            if r.returncode in (124, 137) or 'Out of memory' in r.stderr or 'tack overflow' in r.stderr and 'File "' not in r.stderr:
                m = re.findall(r'^Chars (\d+) - (\d+)', r.stdout, re.M)
                bpos = int(m[-1][1]) + 1 if m else 0
                pos = len(text.encode()[:bpos].decode(errors='ignore'))
            else:
                m = re.search(r'File "[^"]*", line (\d+), characters (\d+)-(\d+)', r.stderr)
                if not m: err = g + ': ' + r.stderr[-300:]; break
                ln = int(m[1]); pos = sum(len(x) + 1 for x in text.split('\n')[:ln - 1]) + int(m[2])
            q = find_proof(text, pos)
            if q is None: err = f'{g}: not in a proof: ' + r.stderr[-400:]; break
            name, kind, a, b = q
            if text[a:b].strip() == 'Admitted.': err = f'{g}: {name} loops'; break
            broken.append(f'{g}.{name}')
            open(f'{w}/{g}.v', 'w').write(text[:a] + 'Admitted.' + text[b:])
        else: err = g + ': too many'
        if err: break
        if g.startswith('P_'):
            names = re.findall(r'^Print Assumptions (\w+)\.', open(f'{w}/{g}.v').read(), re.M)
            blocks, cur = [], None
            for l in r.stdout.split('\n'):
                if l.startswith('Chars '): continue
                if l.startswith('Closed under'): blocks.append([]); cur = None
                elif l.startswith('Axioms:'): cur = []; blocks.append(cur)
                elif cur is not None:
                    m = re.match(r'^([\w.]+)(\s*:|$)', l)
                    if m: cur.append(m[1])
            if len(blocks) != len(names): err = f'{g}: {len(names)} names, {len(blocks)} blocks'; break
            bn = {x.split('.')[-1] for x in broken}
            for n, bl in zip(names, blocks):
                assum[n] = [x for x in bl if x.split('.')[-1] in bn]
    shutil.rmtree(w, ignore_errors=True)
    failed = sorted(n for n, bl in assum.items() if bl)
    res = dict(id=mu['id'], broken=broken, failed=failed, survived=sorted(n for n, bl in assum.items() if not bl), error=err, secs=round(time.time() - t0))
    res['failed_props'] = sorted({n.split('_')[0] for n in failed})
    exp = mu.get('claim_ids', [])
    res['missed'] = [c for c in exp if c not in res['failed_props']]
    os.makedirs(RES, exist_ok=True)
    json.dump(res, open(f"{RES}/{mu['id']}.json", 'w'), indent=1)
    return res

if __name__ == '__main__':
    M = json.load(open(sys.argv[1])); ids = set(sys.argv[2:])
    D = deps(); O = order(D)
    todo = [m for m in M if (not ids or m['id'] in ids) and (ids or not os.path.exists(f"{RES}/{m['id']}.json"))]
    with ThreadPoolExecutor(JOBS) as ex:
        for r in ex.map(lambda m: run(m, D, O), todo):
            print(r['id'], r.get('secs'), 'ERR ' + r['error'] if r.get('error') else '', 'broken:', ' '.join(r.get('broken', [])), '| failed:', len(r.get('failed', [])), ' '.join(r.get('failed_props', [])), '| MISSED' if r.get('missed') else '', ' '.join(r.get('missed', [])), flush=True)
