"""Regenerates MANIFEST.json from the table below (status, theorems, note)."""
import json, re, glob, os
here = os.path.dirname(os.path.dirname(os.path.abspath(__file__)))
NOTES = {}
exec(open(os.path.join(here, 'tools', 'notes.py')).read())
thms = {}
for f in sorted(glob.glob(os.path.join(here, 'rocq/theories/T_*.v'))):
    for m in re.finditer(r'^Theorem ((C\d\d)_\w+)', open(f).read(), re.M):
        thms.setdefault(m.group(2), []).append(m.group(1))
claims = []
for l in open(os.path.join(here, 'properties.jsonl')):
    d = json.loads(l)
    c = d['id']
    ts = thms.get(c, [])
    if c in NOTES:
        st, note = NOTES[c]
    elif ts:
        st, note = 'proved', ''
        assert not any(t.endswith(('_partial', '_refuted')) for t in ts), c
    else:
        st, note = 'partial', 'not modelled yet'
    claims.append({'property': c, 'status': st, 'theorems': ts, 'note': note})
json.dump({'claims': claims}, open(os.path.join(here, 'MANIFEST.json'), 'w'), indent=1)
print(sum(1 for c in claims if c['theorems']), 'properties with theorems,', sum(len(c['theorems']) for c in claims), 'theorems')
