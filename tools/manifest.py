#!/usr/bin/env python3
"""Generate MANIFEST.json: every Theorem named Cnn_* in rocq/theories/*.v is listed under its property."""
import json, re, glob, os
here = os.path.dirname(os.path.abspath(__file__)) + '/..'
thms = {}
for f in sorted(glob.glob(here + '/rocq/theories/*.v')):
    for m in re.finditer(r'^Theorem\s+(C\d\d)(_\w+)', open(f).read(), re.M):
        thms.setdefault(m.group(1), []).append(m.group(1) + m.group(2))
notes = json.load(open(here + '/tools/notes.json'))
claims = []
for l in open(here + '/properties.jsonl'):
    i = json.loads(l)['id']
    n = notes.get(i, {})
    if i in thms:
        st = n.get('status', 'partial' if any(t.endswith(('_partial', '_refuted')) for t in thms[i]) else 'proved')
        claims.append({'property': i, 'status': st, 'theorems': thms[i], 'note': n.get('note', '')})
    else:
        claims.append({'property': i, 'status': 'partial', 'theorems': [], 'note': n.get('note', 'not modelled yet')})
json.dump({'claims': claims}, open(here + '/MANIFEST.json', 'w'), indent=1)
print({c['property']: (c['status'], len(c['theorems'])) for c in claims})
