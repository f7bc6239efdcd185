"""Print Assumptions of every theorem of MANIFEST.json, grouped, as a Markdown list.

Run in /verif/rocq after make; the result is section 5 of DESIGN.md."""
import json, re, subprocess, tempfile, os, sys
root = os.path.dirname(os.path.dirname(os.path.abspath(__file__)))
th = os.path.join(root, 'rocq', 'theories')
names = [t for c in json.load(open(os.path.join(root, 'MANIFEST.json')))['claims'] for t in c['theorems']]
where = {}
for f in sorted(os.listdir(th)):
    if f.endswith('Props.v'):
        for m in re.finditer(r'^Theorem (C\d\d_\w+)', open(os.path.join(th, f)).read(), re.M):
            where[m.group(1)] = f[:-2]
groups = {}
for mod in sorted(set(where.values())):
    ts = [n for n in names if where.get(n) == mod]
    if not ts: continue
    src = f'From Verif Require Import {mod}.\n' + ''.join(f'Print Assumptions {t}.\n' for t in ts)
    with tempfile.TemporaryDirectory() as d:
        open(d + '/A.v', 'w').write(src)
        out = subprocess.run(['coqc', '-Q', th, 'Verif', 'A.v'], cwd=d, capture_output=True, text=True).stdout
    parts = re.split(r'^(?=Axioms:|Closed under)', out, flags=re.M)[1:]
    assert len(parts) == len(ts), (mod, len(parts), len(ts))
    for t, p in zip(ts, parts):
        ax = tuple(sorted(m.group(1).split('.')[-1] for m in re.finditer(r'^([A-Z]\w*(?:\.\w+)+)', p, re.M)))
        groups.setdefault(ax, {}).setdefault(mod, []).append(t)
for ax, mods in sorted(groups.items(), key=lambda x: len(x[0])):
    n = sum(map(len, mods.values()))
    print('* ' + ('**No axioms** ("Closed under the global context")' if not ax else '**' + ', '.join(ax) + '**') + f' — {n} theorems:')
    for mod, ts in mods.items():
        print(f'  * {mod}: ' + ', '.join(ts))
