"""Write seeded/LOG.jsonl from the results of the mutation runs (results.jsonl files given as arguments)."""
import json, sys, re
tight = json.load(open('/verif/seeded/tightened.json'))
out = open('/verif/seeded/LOG.jsonl', 'w')
n = k = 0
for f in sys.argv[1:]:
    for l in open(f):
        r = json.loads(l)
        t = tight.get(r['id'], {})
        out.write(json.dumps({
            'id': r['id'], 'definition': '%s.v' % r['file'], 'edit': 'replaced: %s || by: %s' % (r['old'], r['new']),
            'claim_broken': '%s: %s' % (r['prop'], r['claim']), 'theorems_failed': r['theorems'],
            'theorems_tightened': t.get('tightened', []), 'note': t.get('note', r.get('note', ''))}) + '\n')
        n += 1; k += bool(r['theorems'])
print(n, 'attempts', k, 'killed')
