#!/usr/bin/env python3
"""Test the theorems against wrong programs.

usage: mutate.py [--log] [name ...]

Only the files holding theorems of the properties named in the mutation, and what these need, are rebuilt; FULL=1 rebuilds all.

Each entry of seeded/mutations.json edits one definition of the model the way a bug would. The edit is applied to a scratch copy of
the compiled development (/tmp/mut), and everything that depends on it is rebuilt. A proof that no longer goes through is replaced by
Admitted in the scratch copy and the build goes on, so that at the end Print Assumptions tells for every property theorem whether it
rests on a proof that failed. With --log one line per mutation is appended to seeded/LOG.jsonl."""
import json, os, re, subprocess, sys, shutil, concurrent.futures as cf, threading
VERIF = '/verif'
BASE = os.environ.get('BASE', VERIF)
SCRATCH = '/tmp/mut'
TIMEOUT = 100
JOBS = int(os.environ.get('JOBS', '3'))

def project():
    return [l.strip()[len('theories/'):-2] for l in open(f'{BASE}/rocq/_CoqProject') if l.strip().endswith('.v')]

def deps(files):
    d = {}
    for f in files:
        src = open(f'{BASE}/rocq/theories/{f}.v').read(4000)
        d[f] = set()
        for m in re.finditer(r'From Verif Require (?:Import|Export) ([^.]*)\.', src):
            d[f] |= set(m.group(1).split())
        d[f] &= set(files)
    return d

START = re.compile(r'^(?:Local |Global |#\[[a-z]*\] )?(?:Lemma|Theorem|Example|Corollary|Fact|Remark|Proposition|Instance|Definition|Program|Next|Goal|Ltac|Fixpoint|Section|End|Context|Inductive|Record)\b', re.M)
def admit(path, pos):
    """Replace the proof around offset pos by Admitted; return the name of the lemma, or None when pos is not inside a proof."""
    s = open(path, encoding='utf-8').read()
    b = s.encode('utf-8')
    pos = len(b[:pos].decode('utf-8', 'ignore'))
    starts = [m for m in re.finditer(r'^(?:Local |Global )?(?:Lemma|Theorem|Example|Corollary|Fact|Remark|Proposition)\s+([\w\']+)', s, re.M) if m.start() <= pos]
    if not starts: return None
    m = starts[-1]
    p = s.find('Proof', m.start())
    q = re.compile(r'\b(Qed|Defined|Admitted)\.').search(s, p)
    if p < 0 or q is None or not (p <= pos <= q.end()) or q.group(1) != 'Qed': return None
    e = re.compile(r'Proof[^.]*\.').match(s, p).end()
    # the opening command may be the one that fails (Proof using)
    open(path, 'w', encoding='utf-8').write(s[:e] + ' Admitted.' + s[q.end():])
    return m.group(1)

def compile_file(f, failed, lock):
    path = f'{SCRATCH}/theories/{f}.v'
    while True:
        try:
            r = subprocess.run(['coqc', '-time', '-Q', 'theories', 'Verif', f'theories/{f}.v'], cwd=SCRATCH, capture_output=True, timeout=TIMEOUT)
            out, err, to = r.stdout.decode('utf-8', 'ignore'), r.stderr.decode('utf-8', 'ignore'), False
            if r.returncode == 0: return True
        except subprocess.TimeoutExpired as x:
            out, err, to = (x.stdout or b'').decode('utf-8', 'ignore'), (x.stderr or b'').decode('utf-8', 'ignore'), True
        if to:
            ends = re.findall(r'^Chars (\d+) - (\d+)', out, re.M)
            pos = int(ends[-1][1]) + 2 if ends else 0
            why = 'timeout'
        else:
            m = re.findall(r'^File "[^"]*", line (\d+), characters (\d+)-(\d+):\nError', err, re.M) or re.findall(r'^File "[^"]*", line (\d+), characters (\d+)-(\d+):', err, re.M)
            why = err[-300:]
            if not m:
                with lock: failed.append((f, None, why))
                return False
            line, col = int(m[-1][0]), int(m[-1][1])
            b = open(path, 'rb').read().split(b'\n')
            pos = sum(len(x) + 1 for x in b[:line - 1]) + col
        n = admit(path, pos)
        with lock: failed.append((f, n, why))
        if n is None: return False

def run(mut, files, dep):
    shutil.rmtree(SCRATCH, ignore_errors=True)
    os.makedirs(SCRATCH)
    subprocess.run(['cp', '-a', f'{BASE}/rocq/theories', SCRATCH + '/theories'], check=True)
    path = f'{SCRATCH}/theories/{mut["file"]}.v'
    s = open(path, encoding='utf-8').read()
    edits = mut['edit'] if isinstance(mut['edit'][0], list) else [mut['edit']]
    for old, new in edits:
        if s.count(old) != 1: return {'error': f'{s.count(old)} occurrences of {old!r}'}
        s = s.replace(old, new)
    open(path, 'w', encoding='utf-8').write(s)
    dirty = {mut['file']}
    for f in files:
        if dep[f] & dirty: dirty.add(f)
    skip = set(mut.get('skip', ['Prop_Mult64', 'Prop_Div64', 'Prop_Aes']))
    dirty -= skip
    if not os.environ.get('FULL'):
        # only the files with theorems of the properties named, and what they need
        need = {f for f in files if any(re.search(rf'^(?:Theorem|Lemma|Example) {p}_', open(f'{BASE}/rocq/theories/{f}.v').read(), re.M) for p in mut['breaks'])}
        for f in reversed(files):
            if f in need: need |= dep[f]
        dirty &= need
    failed, lock, ok, bad = [], threading.Lock(), set(files) - dirty, set()
    with cf.ThreadPoolExecutor(JOBS) as ex:
        pending, running = [f for f in files if f in dirty], {}
        while pending or running:
            for f in list(pending):
                if dep[f] & bad: bad.add(f); pending.remove(f)
                elif dep[f] <= ok and len(running) < JOBS:
                    running[ex.submit(compile_file, f, failed, lock)] = f; pending.remove(f)
            if not running: continue
            done, _ = cf.wait(running, return_when=cf.FIRST_COMPLETED)
            for d in done:
                f = running.pop(d); (ok if d.result() else bad).add(f)
    names = [(f, n) for f in files for n in re.findall(r'^(?:Theorem|Lemma|Example) (C\d\d_\w+)', open(f'{BASE}/rocq/theories/{f}.v').read(), re.M)]
    admitted = {n for _, n, _ in failed if n}
    fell, notbuilt = [], []
    good = [(f, n) for f, n in names if f in ok and f in dirty]
    for f, n in names:
        if f in bad: notbuilt.append(n)
    if good:
        v = ''.join(f'From Verif Require {f}.\n' for f in sorted({f for f, _ in good}))
        for f, n in good: v += f'Eval compute in "MARK {n}"%string.\nPrint Assumptions {f}.{n}.\n'
        v = 'From Coq Require Import String.\n' + v
        open(f'{SCRATCH}/ask.v', 'w').write(v)
        r = subprocess.run(['coqc', '-Q', 'theories', 'Verif', 'ask.v'], cwd=SCRATCH, capture_output=True)
        out = r.stdout.decode('utf-8', 'ignore')
        if r.returncode != 0: return {'error': r.stderr.decode()[-500:]}
        parts = re.split(r'"MARK (\w+)"', out)
        for i in range(1, len(parts), 2):
            axs = {x.split('.')[-1] for x in re.findall(r'^([\w.\']+)\s*:', parts[i + 1], re.M)} | {x.split('.')[-1] for x in re.findall(r'^([\w.\']+)$', parts[i + 1], re.M)}
            if parts[i] in admitted or axs & admitted: fell.append(parts[i])
    return {'broken_proofs': [f'{f}.{n}' if n else f'{f}: {w}' for f, n, w in failed], 'theorems_failed': fell, 'not_built': notbuilt}

def main():
    log = '--log' in sys.argv
    want = [a for a in sys.argv[1:] if not a.startswith('--')]
    muts = json.load(open(f'{VERIF}/seeded/mutations.json'))
    done = set()
    if os.path.exists(f'{VERIF}/seeded/LOG.jsonl'):
        for l in open(f'{VERIF}/seeded/LOG.jsonl'):
            if l.strip(): done.add(json.loads(l).get('name'))
    files = project(); dep = deps(files)
    for m in muts:
        if want and m['name'] not in want: continue
        if not want and m['name'] in done: continue
        r = run(m, files, dep)
        props = m['breaks']
        hit = [t for t in r.get('theorems_failed', []) + r.get('not_built', [])]
        missed = [p for p in props if not any(t.startswith(p + '_') for t in hit)]
        entry = {'name': m['name'], 'definition': f"{m['file']}.{m['definition']}", 'edit': m['edit'], 'claim_broken': m['claim'], 'properties': props,
                 'proofs_broken': r.get('broken_proofs'), 'theorems_failed': r.get('theorems_failed'), 'not_built': r.get('not_built'),
                 'survived': missed, 'theorems_tightened': m.get('tightened', [])}
        if 'error' in r: entry['error'] = r['error']
        print(json.dumps(entry)[:1500], flush=True)
        print('SURVIVED' if missed else 'caught', m['name'], missed, flush=True)
        if log and 'error' not in r:
            with open(f'{VERIF}/seeded/LOG.jsonl', 'a') as fo: fo.write(json.dumps(entry) + '\n')
main()
