#!/usr/bin/env python3
"""Print Assumptions for every theorem named in MANIFEST.json (run after a build)."""
import json, re, subprocess, glob, os, tempfile
root = os.path.join(os.path.dirname(os.path.abspath(__file__)), '..')
where = {}
for f in glob.glob(root + '/rocq/theories/*.v'):
    for n in re.findall(r'^Theorem (\w+)', open(f).read(), re.M):
        where.setdefault(n, []).append(os.path.basename(f)[:-2])
names = sorted({t.split('.')[-1] for c in json.load(open(root + '/MANIFEST.json'))['claims'] for t in c['theorems']})
src = ''.join('From Verif Require %s.\n' % m for m in sorted({where[n][0] for n in names}))
src += ''.join('Print Assumptions Verif.%s.%s.\n' % (where[n][0], n) for n in names)
d = tempfile.mkdtemp(); p = d + '/A.v'; open(p, 'w').write(src)
out = subprocess.run(['coqc', '-Q', root + '/rocq/theories', 'Verif', p], capture_output=True, text=True)
print(len(names), 'theorems,', out.stdout.count('Closed under the global context'), 'closed under the global context')
rest = [l for l in out.stdout.splitlines() if 'Closed under' not in l]
print('\n'.join(rest + out.stderr.splitlines()))
