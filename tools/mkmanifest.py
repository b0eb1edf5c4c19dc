#!/usr/bin/env python3
"""Regenerate MANIFEST.json from the theorem names in rocq/theories/Prop*.v and notes.json."""
import collections, glob, json, os, re
root = os.path.dirname(os.path.dirname(os.path.abspath(__file__)))
names = collections.OrderedDict()
for f in sorted(glob.glob(root + "/rocq/theories/Prop*.v")):
    for m in re.finditer(r"^Theorem\s+((C\d\d+)_\w+)", open(f).read(), re.M):
        names.setdefault(m.group(2), []).append(m.group(1))
notes = json.load(open(root + "/tools/notes.json"))
claims = []
for line in open(root + "/properties.jsonl"):
    i = json.loads(line)["id"]
    ths = names.get(i, [])
    n = notes.get(i, {})
    if not ths and n.get("status") != "not_applicable":
        continue
    status = n.get("status")
    if status is None:
        bad = any(t.endswith("_refuted") or t.endswith("_partial") for t in ths)
        status = "partial" if bad else "proved"
    claims.append({"property": i, "status": status, "theorems": ths, "note": n.get("note", "")})
json.dump({"claims": claims}, open(root + "/MANIFEST.json", "w"), indent=1)
print([(c["property"], c["status"], len(c["theorems"])) for c in claims])
