#!/usr/bin/env python3
"""Writes MANIFEST.json: scans the Props*.v files for theorems named Cnn_* and
adds the status and note given here."""
import re, json, glob, collections
NOTES = json.load(open('/verif/tools/notes.json'))
th = collections.OrderedDict()
for f in sorted(glob.glob('/verif/rocq/theories/Props*.v')):
    for m in re.finditer(r'^Theorem\s+(C(\d\d)_\w+)', open(f).read(), re.M):
        th.setdefault('C' + m.group(2), []).append(m.group(1))
claims = []
for l in open('/verif/properties.jsonl'):
    pid = json.loads(l)['id']
    if pid not in th: 
        print('no theorem for', pid); continue
    n = NOTES.get(pid, {})
    claims.append({"property": pid, "status": n.get("status", "proved"), "theorems": th[pid], "note": n.get("note", "")})
json.dump({"claims": claims}, open('/verif/MANIFEST.json', 'w'), indent=1, ensure_ascii=False)
