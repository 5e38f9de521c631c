#!/usr/bin/env python3
"""Print Assumptions for every theorem of MANIFEST.json, in a compiled development. Writes ASSUMPTIONS.txt: one line per theorem."""
import json, os, re, subprocess, tempfile
here = os.path.dirname(os.path.dirname(os.path.abspath(__file__)))
theories = os.path.join(here, 'rocq', 'theories')
where = {}
for f in sorted(os.listdir(theories)):
    if f.endswith('.v'):
        for m in re.finditer(r'^(?:Theorem|Lemma|Corollary|Example)\s+([\w\']+)', open(os.path.join(theories, f), encoding='utf-8').read(), re.M):
            where.setdefault(m.group(1), f[:-2])
names = [t for c in json.load(open(os.path.join(here, 'MANIFEST.json')))['claims'] for t in c['theorems']]
out = {}
for mod in sorted({where[n] for n in names}):
    mine = [n for n in names if where[n] == mod]
    src = f'From Verif Require {mod}.\n' + ''.join(f'Print Assumptions Verif.{mod}.{n}.\n' for n in mine)
    with tempfile.TemporaryDirectory() as d:
        p = os.path.join(d, 'pa.v'); open(p, 'w').write(src)
        r = subprocess.run(['coqc', '-Q', theories, 'Verif', p], capture_output=True, text=True)
        assert r.returncode == 0, r.stderr
    parts = re.split(r'(?=^Closed under the global context|^Axioms:|^Section Variables:)', r.stdout, flags=re.M)
    parts = [' '.join(x.split()) for x in parts if x.strip()]
    assert len(parts) == len(mine), (mod, len(parts), len(mine))
    out.update(zip(mine, parts))
with open(os.path.join(here, 'ASSUMPTIONS.txt'), 'w') as f:
    for n in names: f.write(f'{n}: {out[n]}\n')
print(len(names), 'theorems,', sum(v == 'Closed under the global context' for v in out.values()), 'without assumptions')
