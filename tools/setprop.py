#!/usr/bin/env python3
"""Update the status note of properties, and optionally fields of properties.jsonl.

Reads JSON from stdin: {"C01": {"status": .., "note": .., "statement": .., "title": .., ...}}."""
import json, os, sys
root = os.path.dirname(os.path.dirname(os.path.abspath(__file__)))
sp = os.path.join(root, 'tools/status.json'); pp = os.path.join(root, 'properties.jsonl')
st = json.load(open(sp)); upd = json.load(sys.stdin)
props = [json.loads(l) for l in open(pp)]
idx = {p['id']: p for p in props}
for k, v in upd.items():
    if 'status' in v or 'note' in v:
        e = st.setdefault(k, {"status": "partial", "note": ""})
        e.update({x: v[x] for x in ('status', 'note') if x in v})
    rest = {x: y for x, y in v.items() if x not in ('status', 'note')}
    if rest:
        if k not in idx:
            p = {"id": k}; props.append(p); idx[k] = p
        idx[k].update(rest)
props.sort(key=lambda p: int(p['id'][1:]))
json.dump(st, open(sp, 'w'), indent=0, sort_keys=True)
with open(pp, 'w') as f:
    for p in props:
        f.write(json.dumps({k: p[k] for k in ('id','title','statement','quantifier','why_tests_cant','anchors')}) + "\n")
