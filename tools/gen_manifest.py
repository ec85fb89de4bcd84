#!/usr/bin/env python3
"""Writes MANIFEST.json from the theorem names in rocq/theories/Properties/*.v and
the notes in tools/notes.json.  A property is "partial" when one of its theorems is
named _partial or _refuted."""
import glob, json, os, re
root = os.path.join(os.path.dirname(os.path.abspath(__file__)), '..')
thms = {}
for f in sorted(glob.glob(root + '/rocq/theories/Properties/*.v')):
    for name in re.findall(r'^Theorem (\w+)', open(f).read(), re.M):
        thms.setdefault(name.split('_')[0], []).append(name)
notes = json.load(open(root + '/tools/notes.json'))
claims = []
for line in open(root + '/properties.jsonl'):
    pid = json.loads(line)['id']
    ts = thms.get(pid, [])
    if not ts:
        print('no theorem yet:', pid)
        continue
    st = 'partial' if any(t.endswith(('_partial', '_refuted')) for t in ts) else 'proved'
    claims.append({'property': pid, 'status': st, 'theorems': ts, 'note': notes.get(pid, '')})
    if st == 'partial' and not notes.get(pid): print('note missing:', pid)
json.dump({'claims': claims}, open(root + '/MANIFEST.json', 'w'), indent=1)
