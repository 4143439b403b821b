#!/usr/bin/env python3
"""Writes the axiom lists into DESIGN.md (after a full build)."""
import subprocess, re, os
here = os.path.dirname(os.path.abspath(__file__))
out = subprocess.run(['python3', os.path.join(here, 'axioms.py')], stdout=subprocess.PIPE, text=True).stdout
groups = re.split(r'^(\(.*\) \d+)$', out, flags=re.M)[1:]
g = {}
for head, body in zip(groups[::2], groups[1::2]):
    names, n = head.rsplit(' ', 1)
    g[names.count("'") // 2] = (int(n), ' '.join(body.split()))
def wrap(text, width=118):
    lines, cur = [], ''
    for w in text.split(' '):
        if len(cur) + 1 + len(w) > width: lines.append(cur); cur = w
        else: cur = (cur + ' ' + w).strip()
    return '\n'.join(lines + [cur])
p = os.path.join(here, '..', 'DESIGN.md')
s = open(p).read()
a = s.index('All four: '); e = re.search(r'The other \d+ theorems are closed under the global context\.', s)
new = wrap('All four: ' + g[4][1] + '.') + '\n\n' + wrap('Only `sig_forall_dec` and `functional_extensionality_dep`: ' + g[2][1] + '.') + '\n\nThe other %d theorems are closed under the global context.' % g[0][0]
open(p, 'w').write(s[:a] + new + s[e.end():])
