#!/usr/bin/env python3
"""Regenerates /verif/MANIFEST.json from the theorem names in rocq/theories/*Props.v and notes.json."""
import json, re, glob, os
root = os.path.dirname(os.path.dirname(os.path.abspath(__file__)))
props = [json.loads(l) for l in open(root + '/properties.jsonl')]
notes = json.load(open(root + '/tools/notes.json'))
names = []
for f in sorted(glob.glob(root + '/rocq/theories/*Props*.v')):
    names += re.findall(r'^\s*(?:Theorem|Lemma)\s+(C\d\d+_\w+)', open(f).read(), re.M)
claims = []
for p in props:
    i = p['id']
    ths = [n for n in names if n.startswith(i + '_')]
    n = notes.get(i, {})
    if not ths:
        continue
    st = n.get('status') or ('partial' if any(t.endswith('_partial') or t.endswith('_refuted') for t in ths) else 'proved')
    claims.append({'property': i, 'status': st, 'theorems': ths, 'note': n.get('note', '')})
json.dump({'claims': claims}, open(root + '/MANIFEST.json', 'w'), indent=1)
print(len(claims), 'claims;', sum(c['status'] == 'proved' for c in claims), 'proved;', 'missing', [p['id'] for p in props if p['id'] not in {c['property'] for c in claims}])
print('unlisted', [n for n in names if n.split('_')[0] not in {p['id'] for p in props}])
