"""Prints section 5 of DESIGN.md: what Print Assumptions lists for each theorem of
MANIFEST.json.  Usage: gen_axioms.py (after a build; needs coqc)."""
import json, os, re, subprocess, tempfile, glob
root = os.path.dirname(os.path.dirname(os.path.abspath(__file__)))
th = os.path.join(root, 'rocq', 'theories')
names = [t for c in json.load(open(os.path.join(root, 'MANIFEST.json')))['claims'] for t in c['theorems']]
where = {}
for f in sorted(glob.glob(os.path.join(th, 'Props_*.v'))):
    for m in re.finditer(r'^Theorem\s+(\w+)', open(f).read(), re.M):
        where[m.group(1)] = os.path.basename(f)[:-2]
mods = sorted(set(where.values()))
src = ''.join(f'From Verif Require {m}.\n' for m in mods)
src += ''.join(f'Goal True. idtac "@@ {n}". exact I. Qed.\nPrint Assumptions {where[n]}.{n}.\n' for n in names)
with tempfile.TemporaryDirectory() as d:
    p = os.path.join(d, 'ax.v')
    open(p, 'w').write(src)
    r = subprocess.run(['coqc', '-Q', th, 'Verif', p], stdout=subprocess.PIPE, stderr=subprocess.STDOUT, text=True)
if r.returncode: raise SystemExit(r.stdout[-2000:])
sets = {}
for part in re.split(r'^@@ ', r.stdout, flags=re.M)[1:]:
    n, rest = part.split('\n', 1)
    ax = frozenset(re.findall(r'^([A-Z][\w.\']*)\s*(?::|$)', rest, re.M)) - {'Axioms', 'Closed'}
    sets.setdefault(frozenset(ax), []).append(n)
short = {'ClassicalDedekindReals.sig_forall_dec': 'sig_forall_dec', 'ClassicalDedekindReals.sig_not_dec': 'sig_not_dec',
         'FunctionalExtensionality.functional_extensionality_dep': 'functional_extensionality_dep', 'Classical_Prop.classic': 'classic'}
print('## 5. Axioms per theorem\n')
print('Generated by `tools/gen_axioms.py` from `Print Assumptions`.\n')
for ax in sorted(sets, key=lambda a: (len(a), sorted(a))):
    print('* ' + ('Closed under the global context (no axioms)' if not ax else 'Axioms ' + ', '.join('`' + short.get(a, a) + '`' for a in sorted(ax)))
          + f' ({len(sets[ax])} theorems): ' + ', '.join(sets[ax]) + '.\n')
