#!/usr/bin/env python3
"""Regenerate MANIFEST.json: theorem names are read from rocq/theories/T_*.v by their
Cnn_ prefix, notes from tools/notes.json."""
import glob, json, os, re
root = os.path.dirname(os.path.dirname(os.path.abspath(__file__)))
props = [json.loads(l)['id'] for l in open(root + '/properties.jsonl')]
notes = json.load(open(root + '/tools/notes.json'))
thms = {}
for f in sorted(glob.glob(root + '/rocq/theories/T_*.v')):
    for m in re.finditer(r'^Theorem\s+((C\d\d)_\w+)', open(f).read(), re.M):
        thms.setdefault(m.group(2), []).append(m.group(1))
claims = []
for p in props:
    t = thms.get(p, [])
    if not t:
        st = 'not_applicable'
    elif any(x.endswith('_partial') or x.endswith('_refuted') for x in t):
        st = 'partial'
    else:
        st = 'proved'
    n = notes.get(p, {})
    if isinstance(n, str):
        n = {'note': n}
    st = n.get('status', st)
    note = n.get('note', '' if t else 'not modelled yet')
    claims.append({'property': p, 'status': st, 'theorems': t, 'note': note})
unknown = set(thms) - set(props)
assert not unknown, unknown
json.dump({'claims': claims}, open(root + '/MANIFEST.json', 'w'), indent=1)
from collections import Counter
print(Counter(c['status'] for c in claims), sum(len(c['theorems']) for c in claims))
