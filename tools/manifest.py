#!/usr/bin/env python3
"""Regenerate MANIFEST.json from properties.jsonl, the Prop*.v files and status.json.

Theorem names start with the property id; status.json gives status and note."""
import glob, json, os, re
root = os.path.dirname(os.path.dirname(os.path.abspath(__file__)))
thms = {}
for f in sorted(glob.glob(os.path.join(root, 'rocq/theories/Prop*.v'))):
    for m in re.finditer(r'^Theorem\s+((C\d+)_\w+)', open(f).read(), re.M):
        thms.setdefault(m.group(2), []).append(m.group(1))
status = json.load(open(os.path.join(root, 'tools/status.json')))
claims = []
for line in open(os.path.join(root, 'properties.jsonl')):
    pid = json.loads(line)['id']
    if pid not in thms and pid not in status:
        continue
    st, note = status[pid]
    claims.append({'property': pid, 'status': st, 'theorems': thms.get(pid, []), 'note': note})
missing = [p for p in thms if p not in status]
assert not missing, missing
json.dump({'claims': claims}, open(os.path.join(root, 'MANIFEST.json'), 'w'), indent=1)
print(len(claims), 'claims', sum(len(c['theorems']) for c in claims), 'theorems')
