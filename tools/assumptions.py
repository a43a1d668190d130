"""Run Print Assumptions on every theorem of MANIFEST.json (build first) and group the theorems by
what it lists.  Prints markdown."""
import json, re, subprocess, os, glob
ROCQ = os.environ.get('ROCQ', '/verif/rocq')
src = {}
for f in glob.glob(ROCQ + '/theories/P_*.v'):
    for m in re.finditer(r'^(?:Theorem|Example|Lemma|Corollary)\s+(C\d\d+_\w+)', open(f).read(), re.M): src[m.group(1)] = os.path.basename(f)[:-2]
names = sorted(src)
mods = sorted(set(src.values()))
t = 'From Verif Require ' + ' '.join(mods) + '.\n' + ''.join('Print Assumptions Verif.%s.%s.\n' % (src[n], n) for n in names)
open('/tmp/PA.v', 'w').write(t)
out = subprocess.run('cd ' + ROCQ + '/theories && coqc -w none -Q . Verif /tmp/PA.v', shell=True, capture_output=True, text=True).stdout
blocks = re.split(r'^(?=Closed under the global context|Axioms:)', out, flags=re.M)[1:]
assert len(blocks) == len(names), (len(blocks), len(names), out[-500:])
groups = {}
for n, body in zip(names, blocks):
    ax = tuple(sorted(set(a for a in re.findall(r'^([A-Za-z_][\w.\']*)\s*:', body, re.M)))) if 'Closed under' not in body else ()
    groups.setdefault(ax, []).append(n)
std = lambda a: a.split('.')[-1]
base, rest = {}, {}
for ax, ns in groups.items():
    if not ax: print('* closed under the global context (%d): %s' % (len(ns), ', '.join(ns))); continue
print()
allax = sorted(set(a for ax in groups for a in ax))
print('axioms and primitives used anywhere:', ', '.join('`%s`' % a for a in allax)); print()
prims = [a for a in allax if a.startswith(('PrimInt63.', 'PrimFloat.'))]
cls = {}
for ax, ns in groups.items():
    if not ax: continue
    key = []
    if any(a in prims for a in ax): key.append('the primitive types and operations')
    if any(a.startswith('FloatAxioms.') for a in ax): key.append('FloatAxioms')
    if any(a.startswith('Uint63.') for a in ax): key.append('Uint63')
    key += [a for a in ax if not a.startswith(('PrimInt63.', 'PrimFloat.', 'FloatAxioms.', 'Uint63.'))]
    cls.setdefault(tuple(key), []).extend(ns)
for k, ns in sorted(cls.items(), key=lambda kv: len(kv[0])): print('* %s (%d): %s' % (', '.join(k), len(ns), ', '.join(sorted(ns)))); print()
