#!/usr/bin/env python3
"""Regenerates MANIFEST.json from the theorem names in rocq/theories/Properties (Cnn_...) and tools/notes.json."""
import json, re, glob, os
root = os.path.dirname(os.path.dirname(os.path.abspath(__file__)))
props = [json.loads(l) for l in open(root + '/properties.jsonl')]
notes = json.load(open(root + '/tools/notes.json'))
ths = {}
for f in sorted(glob.glob(root + '/rocq/theories/Properties/*.v')):
    for m in re.finditer(r'^(?:Theorem|Lemma)\s+((C\d\d+)_\w+)', open(f).read(), re.M):
        ths.setdefault(m.group(2), []).append(m.group(1))
claims = []
for p in props:
    i = p['id']
    t = ths.get(i, [])
    n = notes.get(i, {})
    st = n.get('status') or ('partial' if (not t or any(x.endswith(('_partial', '_refuted')) for x in t)) else 'proved')
    claims.append({'property': i, 'status': st, 'theorems': t, 'note': n.get('note', '' if t else 'not modelled yet')})
json.dump({'claims': claims}, open(root + '/MANIFEST.json', 'w'), indent=1)
print({s: sum(c['status'] == s for c in claims) for s in ('proved', 'partial', 'not_applicable')}, [c['property'] for c in claims if not c['theorems']])
