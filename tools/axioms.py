"""Prints the axiom lists of DESIGN.md (run after the build): needs /tmp."""
import re, glob, subprocess, os, textwrap, shutil
R = '/verif/rocq'; T = '/tmp/ax'
shutil.rmtree(T, ignore_errors=True); os.makedirs(T)
mods, ths = [], []
for f in sorted(glob.glob(R + '/theories/T_*.v')):
    m = os.path.basename(f)[:-2]
    mods.append(m)
    ths += [(m, x) for x in re.findall(r'^Theorem (\w+)', open(f).read(), re.M)]
s = 'From Verif Require %s.\n' % ' '.join(mods)
for m, x in ths:
    s += 'Redirect "%s/%s" Print Assumptions %s.%s.\n' % (T, x, m, x)
open(T + '/ax_all.v', 'w').write(s)
subprocess.check_call(['coqc', '-Q', R + '/theories', 'Verif', T + '/ax_all.v'])
groups = {}
for m, x in ths:
    t = open('%s/%s.out' % (T, x)).read()
    k = tuple(sorted(a for a in ['sig_not_dec', 'sig_forall_dec', 'functional_extensionality_dep', 'classic '] if a in t))
    if not k: assert 'Closed under' in t, x
    rest = [l for l in re.findall(r'^([A-Za-z_.]+)\s*:', t, re.M) if l not in ('Axioms', 'ClassicalDedekindReals.sig_not_dec', 'ClassicalDedekindReals.sig_forall_dec', 'FunctionalExtensionality.functional_extensionality_dep', 'Classical_Prop.classic')]
    assert not rest, (x, rest)
    groups.setdefault(k, []).append(x)
for k, v in groups.items():
    print(k, len(v)); print(textwrap.fill(', '.join(sorted(v)), 120) if k else '')
