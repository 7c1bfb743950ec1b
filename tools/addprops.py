#!/usr/bin/env python3
"""Append or replace entries of properties.jsonl / status.json from a JSON file:
{"props": [{...}], "status": {"Cnn": ["proved", "note"]}}"""
import json, sys, os
root = os.path.dirname(os.path.dirname(os.path.abspath(__file__)))
new = json.load(open(sys.argv[1]))
path = os.path.join(root, 'properties.jsonl')
props = [json.loads(l) for l in open(path) if l.strip()]
byid = {p['id']: i for i, p in enumerate(props)}
for p in new.get('props', []):
    if p['id'] in byid:
        props[byid[p['id']]].update(p)
    else:
        props.append(p)
with open(path, 'w') as f:
    for p in props:
        f.write(json.dumps(p, ensure_ascii=False) + '\n')
path = os.path.join(root, 'tools', 'status.json')
st = json.load(open(path))
st.update(new.get('status', {}))
json.dump(st, open(path, 'w'), indent=0)
