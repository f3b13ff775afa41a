#!/usr/bin/env python3
"""Print Assumptions for every theorem named in MANIFEST.json. Run after the build, anywhere."""
import glob, json, os, re, subprocess, sys, tempfile
root = os.path.dirname(os.path.dirname(os.path.abspath(__file__)))
names = sorted({t for c in json.load(open(root + '/MANIFEST.json'))['claims'] for t in c['theorems']})
where = {}
for f in sorted(glob.glob(root + '/rocq/theories/*.v')):
    for m in re.finditer(r'^\s*(?:Theorem|Lemma|Example|Corollary|Fact)\s+(\w+)', open(f).read(), re.M):
        where.setdefault(m.group(1), os.path.basename(f)[:-2])
text = 'From Verif Require Import ' + ' '.join(sorted({where[n] for n in names})) + '.\n'
text += ''.join('Print Assumptions %s.%s.\n' % (where[n], n) for n in names)
with tempfile.TemporaryDirectory() as d:
    open(d + '/pa.v', 'w').write(text)
    r = subprocess.run(['coqc', '-Q', root + '/rocq/theories', 'Verif', d + '/pa.v'], capture_output=True, text=True)
sys.stderr.write(r.stderr)
blocks = [b for b in re.split(r'\n(?=Closed under|Axioms:)', r.stdout.strip()) if b]
for n, b in zip(names, blocks):
    print(where[n] + '.' + n + ': ' + b.strip().replace('\n', ' '))
print(len(names), 'theorems,', sum(b.startswith('Closed') for b in blocks), 'closed under the global context')
