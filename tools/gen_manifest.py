#!/usr/bin/env python3
"""Regenerate MANIFEST.json from the theorem names in rocq/theories/*Props*.v and tools/notes.json."""
import json, re, glob, os
root = os.path.dirname(os.path.dirname(os.path.abspath(__file__)))
thms = {}
for f in sorted(glob.glob(root + '/rocq/theories/*.v')):
    for m in re.finditer(r'^Theorem (C(\d+)_\w+)', open(f).read(), re.M):
        thms.setdefault('C' + m.group(2), []).append(m.group(1))
notes = json.load(open(root + '/tools/notes.json'))
ids = [json.loads(l)['id'] for l in open(root + '/properties.jsonl') if l.strip()]
claims = []
for i in ids:
    if i not in thms and i not in notes:
        continue
    n = notes.get(i, {})
    st = n.get('status') or ('partial' if any(t.endswith('_partial') for t in thms.get(i, [])) else 'proved')
    claims.append({"property": i, "status": st, "theorems": thms.get(i, []), "note": n.get('note', '')})
extra = set(thms) - set(ids)
assert not extra, extra
with open(root + '/MANIFEST.json', 'w') as f:
    f.write('{"claims": [\n' + ',\n'.join(json.dumps(c) for c in claims) + '\n]}\n')
print(len(claims), 'claims;', 'missing:', [i for i in ids if i not in {c['property'] for c in claims}])
