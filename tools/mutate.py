#!/usr/bin/env python3
"""Seeds a bug in a model file, in a scratch copy of rocq/, and finds which proofs break.

usage: mutate.py scratch-dir spec.jsonl out.jsonl
Each line of the spec: {"file": "XModel.v", "def": name, "old": text, "new": text, "claim": what becomes false, "props": [expected properties]}
A proof that fails is replaced by Admitted so that the rest can be tried; a theorem counts as failed if it depends on one of these, as told by
Print Assumptions."""
import json, os, re, shutil, subprocess, sys, time
SRC = os.environ.get('SRC', '/verif/rocq/theories')
scratch, spec, out = sys.argv[1:4]
os.makedirs(scratch, exist_ok=True)

def deps():
    files = [f for f in os.listdir(SRC) if f.endswith('.v')]
    d = {}
    for f in files:
        s = open(f'{SRC}/{f}').read()
        r = set()
        for m in re.finditer(r'From Verif Require (?:Import|Export) ([\w\s]+?)\.', s):
            r |= {x + '.v' for x in m.group(1).split()}
        d[f] = r & set(files)
    return d
D = deps()
def affected(f0):
    order, seen = [], set()
    def visit(f):
        if f in seen: return
        seen.add(f)
        for g in sorted(D[f]): visit(g)
        order.append(f)
    for f in sorted(D): visit(f)
    dirty, res = {f0}, []
    for f in order:
        if f == f0 or D[f] & dirty:
            dirty.add(f); res.append(f)
    return res

STMT = re.compile(r'^\s*(?:#\[[^\]]*\]\s*)?(?:Local |Global )?(Lemma|Theorem|Corollary|Example|Remark|Fact|Definition|Fixpoint|Instance|Ltac|Inductive|Record)\s+([\w\']+)', re.M)
def coqc(d, f):
    try:
        p = subprocess.run(f'ulimit -v 6000000; timeout 400 coqc -Q . Verif {f}', shell=True, cwd=d, capture_output=True, text=True)
    except Exception as e:
        return str(e)
    return None if p.returncode == 0 else (p.stderr + p.stdout) or f'exit {p.returncode}'

def run(m):
    d = scratch
    for f in os.listdir(SRC):
        if f.endswith(('.v', '.vo')):
            t = f'{d}/{f}'
            if f.endswith('.v'):
                if not os.path.exists(t) or open(t).read() != open(f'{SRC}/{f}').read() or f.endswith('.v'):
                    shutil.copy2(f'{SRC}/{f}', t)
            elif not os.path.exists(t) or os.path.getmtime(t) != os.path.getmtime(f'{SRC}/{f}'):
                shutil.copy2(f'{SRC}/{f}', t)
    s = open(f'{d}/{m["file"]}').read()
    if s.count(m['old']) < 1: return {'error': 'old text not found'}
    if s.count(m['old']) > 1 and not m.get('multi'): return {'error': 'old text not unique'}
    open(f'{d}/{m["file"]}', 'w').write(s.replace(m['old'], m['new']))
    failed, broken, dead = [], [], set()
    t0 = time.time()
    aff = [f for f in affected(m['file']) if f == m['file'] or re.match(m.get('only', '.'), f)]
    for f in aff:
        if D[f] & dead:
            dead.add(f); continue
        for _ in range(60):
            err = coqc(d, f)
            if err is None: break
            mm = re.search(r'File "\./(\S+)", line (\d+), characters', err)
            s = open(f'{d}/{f}').read()
            if not mm or mm.group(1) != f:
                dead.add(f); broken.append([f, err.strip()[-300:]]); break
            ln = int(mm.group(2))
            pos = sum(len(x) + 1 for x in s.split('\n')[:ln - 1])
            st = [x for x in STMT.finditer(s) if x.start() <= pos + 200]
            st = [x for x in STMT.finditer(s) if s.count('\n', 0, x.start(1)) + 1 <= ln]
            if not st or st[-1].group(1) in ('Definition', 'Fixpoint', 'Ltac', 'Inductive', 'Record', 'Instance'):
                dead.add(f); broken.append([f, err.strip()[-300:]]); break
            x = st[-1]
            pr = s.find('Proof', x.start())
            ends = [e for e in (s.find('Qed.', pr), s.find('Defined.', pr)) if e >= 0]
            if pr < 0 or not ends or (len(STMT.findall(s[x.end():pr])) > 0):
                dead.add(f); broken.append([f, err.strip()[-300:]]); break
            e = min(ends); e2 = s.index('.', e) + 1
            old = s[pr:e2]
            stmt_end_line = s.count('\n', 0, pr) + 1
            if ln < stmt_end_line:   # the statement itself no longer typechecks
                dead.add(f); broken.append([f, 'statement ' + x.group(2)]); break
            new = 'Proof. Admitted.' + '\n' * old.count('\n')
            s = s[:pr] + new + s[e2:]
            open(f'{d}/{f}', 'w').write(s)
            failed.append((x.group(1), x.group(2)))
        else:
            dead.add(f)
        if time.time() - t0 > 2400:
            return {'error': 'too long', 'failed': [n for _, n in failed]}
    # which theorems depend on what failed
    props = [f for f in aff if f.endswith('Props.v')]
    th = []
    for f in props:
        names = re.findall(r'^Theorem (C\d+\w*)', open(f'{SRC}/{f}').read(), re.M)
        if f in dead:
            th += names; continue
        if not names: continue
        chk = f'From Verif Require {f[:-2]}.\n' + ''.join(f'Goal True. idtac "@@{n}". Abort.\nPrint Assumptions {f[:-2]}.{n}.\n' for n in names)
        open(f'{d}/Chk_tmp.v', 'w').write(chk)
        p = subprocess.run('timeout 400 coqc -Q . Verif Chk_tmp.v', shell=True, cwd=d, capture_output=True, text=True)
        parts = re.split(r'@@(\w+)\n', p.stdout)
        bad = {n for _, n in failed}
        for n, body in zip(parts[1::2], parts[2::2]):
            if any(re.search(r'(^|\.|\s)' + re.escape(b) + r'\s*:', body) for b in bad): th.append(n)
    return {'failed_theorems': sorted(set(th)), 'failed_proofs': [n for k, n in failed if k != 'Example'], 'failed_examples': [n for k, n in failed if k == 'Example'],
            'dead': sorted(dead), 'broken': broken, 'seconds': round(time.time() - t0)}

done = set()
if os.path.exists(out):
    for l in open(out):
        j = json.loads(l); done.add((j['file'], j['old'], j['new']))
for l in open(spec):
    if not l.strip(): continue
    m = json.loads(l)
    if (m['file'], m['old'], m['new']) in done: continue
    r = run(m)
    m.update(r)
    open(out, 'a').write(json.dumps(m) + '\n')
    for f in os.listdir(scratch):   # restore compiled files
        if f.endswith('.vo') and os.path.exists(f'{SRC}/{f}'): shutil.copy2(f'{SRC}/{f}', f'{scratch}/{f}')
