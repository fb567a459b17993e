#!/usr/bin/env python3
"""Seed one bug at a time into a scratch copy of the model, rebuild, and log which theorems stop proving.

usage: mutate.py MUTATIONS.py [jobs]
MUTATIONS.py defines a list M of dicts: id, file, definition, old, new, claim (which property becomes false, and why).
Failing proofs are replaced by Admitted in the scratch copy, so that the build goes on and every theorem that needs a
failed lemma is found with Print Assumptions.  One JSON line per mutation is appended to seeded/LOG.jsonl.
"""
import json, os, pathlib, re, runpy, shutil, subprocess, sys, time
V = pathlib.Path('/verif'); SRC = pathlib.Path(os.environ.get('MUTSRC', '/verif/rocq')); W = pathlib.Path(os.environ.get('MUTDIR', '/tmp/mut'))
LOG = V/'seeded/LOG.jsonl'
jobs = sys.argv[2] if len(sys.argv) > 2 else '3'
KW = r'(?:Local |Global |#\[[^\]]*\] *)?(?:Theorem|Lemma|Example|Corollary|Fact|Remark|Proposition|Instance)'
HEAD = re.compile(r'^\s*' + KW + r'\s+([A-Za-z0-9_\']+)')
FLAGS = [x for l in (SRC/'_CoqProject').read_text().splitlines() if not l.startswith(('theories', '-arg')) for x in l.split()]

def sync():
    shutil.rmtree(W, ignore_errors=True)
    subprocess.run(['cp', '-a', str(SRC), str(W)], check=True)
    subprocess.run(['coq_makefile', '-f', '_CoqProject', '-o', 'Makefile'], cwd=W, check=True, stdout=subprocess.DEVNULL)

def build():
    p = subprocess.run(['timeout', '1500', 'make', '-k', '-j' + jobs, 'COQC=coqc_t'], cwd=W, stdout=subprocess.PIPE, stderr=subprocess.STDOUT, text=True)
    errs = []
    lines = p.stdout.splitlines()
    for i, l in enumerate(lines):
        m = re.match(r'File "\./?(theories/[^"]+)", line (\d+)', l)
        if m and i + 1 < len(lines) and any('Error' in x for x in lines[i+1:i+3]):
            errs.append((m.group(1), int(m.group(2)), ' '.join(lines[i+1:i+6])))
    slow = re.findall(r'\*\*\* \[[^\]]*(theories/\S+?)\.vo\] Error 124', p.stdout)
    return p.returncode, errs, slow

def enclosing(f, line):
    ls = (W/f).read_text().splitlines()
    for i in range(min(line, len(ls)) - 1, -1, -1):
        m = HEAD.match(ls[i])
        if m: return m.group(1), i
        if re.match(r'^\s*(Definition|Fixpoint|Inductive|Record|Section|End|Notation)\b', ls[i]) and i != line - 1: break
    return None, None

def admit(f, line):
    """replace the proof that fails at [line] by Admitted; returns the lemma's name or None"""
    name, i = enclosing(f, line)
    if name is None: return None
    ls = (W/f).read_text().splitlines()
    # find "Proof" line at or after i and the closing Qed/Defined
    j = i
    while j < len(ls) and not re.search(r'\bProof\b', ls[j]): j += 1
    if j >= len(ls) or j > line: return None          # the statement itself fails
    k = j
    while k < len(ls) and not re.search(r'\b(Qed|Defined)\.', ls[k]): k += 1
    if k >= len(ls) or k < line - 1: return None
    pre = re.split(r'\bProof\b', ls[j])[0]
    using = re.search(r'Proof using[^.]*\.', ls[j])
    ls[j:k+1] = [pre + 'Proof. Admitted.'] + [''] * (k - j)
    (W/f).write_text('\n'.join(ls) + '\n')
    return name

def prop_theorems():
    out = []
    for f in sorted((W/'theories/Properties').glob('*.v')):
        for l in f.read_text().splitlines():
            m = HEAD.match(l)
            if m: out.append((f.stem, m.group(1)))
    return out

def affected(admitted):
    """property theorems (and examples) whose assumptions now contain an admitted lemma, or whose file no longer builds"""
    dep, blocked = [], []
    byfile = {}
    q = subprocess.run(['make', '-n', '-k'], cwd=W, stdout=subprocess.PIPE, stderr=subprocess.DEVNULL, text=True).stdout
    pending = set(re.findall(r'theories/Properties/(\w+)\.v', q))
    for f, t in prop_theorems(): byfile.setdefault(f, []).append(t)
    for f, ts in byfile.items():
        vo = W/'theories/Properties'/(f + '.vo'); v = W/'theories/Properties'/(f + '.v')
        if vo.exists() and vo.stat().st_mtime == (SRC/'theories/Properties'/(f + '.vo')).stat().st_mtime and f not in pending: continue
        if not vo.exists() or f in pending:
            blocked.append(f); continue
        t = 'From Verif.Properties Require Import %s.\n' % f + ''.join('Print Assumptions %s.\n' % x for x in ts)
        (pathlib.Path(str(W) + '_pa.v')).write_text(t)
        o = subprocess.run(['coqc', *FLAGS, str(W) + '_pa.v'], cwd=W, stdout=subprocess.PIPE, stderr=subprocess.STDOUT, text=True).stdout
        parts = re.split(r'(?m)^(?=Closed under the global context|Axioms:)', o)
        parts = [p for p in parts if p.startswith(('Closed', 'Axioms'))]
        for x, p in zip(ts, parts):
            if p.startswith('Axioms'): dep.append(x)
    return dep, blocked

def run(m):
    sync()
    f = W/m['file']
    t = f.read_text()
    if t.count(m['old']) < 1: return {'id': m['id'], 'problem': 'pattern not found'}
    n = m.get('nth', 0)
    pos = -1
    start = t.find(m['definition']) if m.get('anchor', True) and m['definition'] in t else 0
    for _ in range(n + 1): 
        pos = t.find(m['old'], max(pos + 1, start))
    if pos < 0: return {'id': m['id'], 'problem': 'pattern not found after definition'}
    f.write_text(t[:pos] + m['new'] + t[pos + len(m['old']):])
    t0 = time.time(); failed = []; stuck = []; model_broken = False
    for it in range(int(os.environ.get('MUTITER', '12'))):
        rc, errs, slow = build()
        if rc == 0: break
        prog = False
        for s in slow:
            s = s + '.v: a proof script no longer terminates (stopped after 500 s)'
            if s not in stuck: stuck.append(s)
        for (ef, ln, msg) in errs:
            if ef == m['file'] or ef.startswith('theories/Model'):
                model_broken = True; stuck.append(f'{ef}:{ln} {msg[:160]}'); continue
            nm = admit(ef, ln)
            if nm: failed.append(nm); prog = True
            else:
                nm2, _ = enclosing(ef, ln)
                s = f'{ef}:{nm2 or ln} {msg[:120]}'
                if s not in stuck: stuck.append(s)
        if model_broken or not prog: break
    dep, blocked = affected(failed) if (failed or stuck) else ([], [])
    r = dict(id=m['id'], definition=m['file'].replace('theories/', '') + ': ' + m['definition'],
             edit=f"{m['old']}  ==>  {m['new']}", claim_broken=m['claim'],
             theorems_failed=failed, property_theorems_failed=dep, property_files_blocked=blocked,
             statements_failed=stuck, survived=not (failed or stuck), theorems_tightened=m.get('tightened', []),
             seconds=round(time.time() - t0))
    if model_broken: r['problem'] = 'model does not typecheck'
    return r

if __name__ == '__main__':
    M = runpy.run_path(sys.argv[1])['M']
    done = {json.loads(l)['id'] for l in LOG.read_text().splitlines() if l.strip()} if LOG.exists() else set()
    for m in M:
        if m['id'] in done: continue
        r = run(m)
        if 'problem' in r: print('PROBLEM', json.dumps(r)[:600], flush=True); continue
        with LOG.open('a') as g: g.write(json.dumps(r) + '\n')
        print(r['id'], 'SURVIVED' if r['survived'] else 'killed', len(r['theorems_failed']), 'lemmas;', len(r['property_theorems_failed']), 'props;', 'blocked', r['property_files_blocked'], r['seconds'], 's', flush=True)
