#!/usr/bin/env python3
"""Write MANIFEST.json from the theorem names in rocq/theories/Props_*.v.

A theorem C07_foo belongs to property C07.  Notes and statuses live in
tools/notes.json: {"C07": {"status": "proved", "note": "..."}}."""
import glob, json, os, re
root = os.path.dirname(os.path.dirname(os.path.abspath(__file__)))
thms = {}
for f in sorted(glob.glob(root + '/rocq/theories/Props_*.v')):
    for m in re.finditer(r'^Theorem (C\d\d\d?)(_\w+)', open(f).read(), re.M):
        thms.setdefault(m.group(1), []).append(m.group(1) + m.group(2))
notes = json.load(open(root + '/tools/notes.json'))
claims = []
for line in open(root + '/properties.jsonl'):
    p = json.loads(line)['id']
    t = thms.get(p, [])
    if not t:
        continue
    n = notes.get(p, {})
    bad = any('_refuted' in x or '_partial' in x for x in t)
    status = n.get('status', 'partial' if bad else 'proved')
    claims.append({'property': p, 'status': status, 'theorems': t, 'note': n.get('note', '')})
json.dump({'claims': claims}, open(root + '/MANIFEST.json', 'w'), indent=1)
print(len(claims), 'claims', sum(len(c['theorems']) for c in claims), 'theorems',
      [c['property'] for c in claims if c['status'] == 'partial'])
