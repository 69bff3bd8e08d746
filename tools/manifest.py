#!/usr/bin/env python3
"""Regenerate MANIFEST.json from the Cnn_ theorems in rocq/theories/*Props.v.

tools/status.json maps a property id to {"status": ..., "note": ...}."""
import json, re, glob, os
root = os.path.dirname(os.path.dirname(os.path.abspath(__file__)))
status = json.load(open(os.path.join(root, 'tools/status.json')))
thms = {}
for f in sorted(glob.glob(os.path.join(root, 'rocq/theories/*Props*.v'))):
    for m in re.finditer(r'^(?:Theorem|Lemma)\s+((C\d+)_\w+)', open(f).read(), re.M):
        thms.setdefault(m.group(2), []).append(m.group(1))
claims = []
for line in open(os.path.join(root, 'properties.jsonl')):
    pid = json.loads(line)['id']
    st = status.get(pid)
    if st is None:
        print('no status for', pid, thms.get(pid))
        continue
    claims.append({"property": pid, "status": st["status"],
                   "theorems": thms.get(pid, []), "note": st["note"]})
json.dump({"claims": claims}, open(os.path.join(root, 'MANIFEST.json'), 'w'), indent=1)
