#!/usr/bin/env python3
# Writes ASSUMPTIONS.txt: the output of Print Assumptions for every theorem of MANIFEST.json
# (the theories must be built).
import json, re, glob, subprocess
where = {}
for f in sorted(glob.glob('/verif/rocq/theories/*Props*.v')):
    mod = f.split('/')[-1][:-2]
    for m in re.finditer(r'^(?:Theorem|Corollary)\s+(C\d\d+_\w+)', open(f).read(), re.M):
        where[m.group(1)] = mod
ths = [t for c in json.load(open('/verif/MANIFEST.json'))['claims'] for t in c['theorems']]
src = '\n'.join('From Verif Require %s.' % m for m in sorted(set(where.values()))) + '\n'
src += '\n'.join('Print Assumptions %s.%s.' % (where[t], t) for t in ths)
open('/tmp/assumptions.v', 'w').write(src)
out = subprocess.run(['coqc', '-Q', '/verif/rocq/theories', 'Verif', '/tmp/assumptions.v'], capture_output=True, text=True)
assert out.returncode == 0, out.stderr
lines = [l for l in out.stdout.split('\n') if l]
assert len(lines) == len(ths), 'some theorem has assumptions:\n' + out.stdout
open('/verif/ASSUMPTIONS.txt', 'w').write(''.join('%s: %s\n' % x for x in zip(ths, lines)))
print(len(ths), set(lines))
