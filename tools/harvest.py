#!/usr/bin/env python3
"""Collects results of tools/mutate.py into seeded/LOG.jsonl.
usage: harvest.py tightened.json out1.jsonl [out2.jsonl ...]
tightened.json: {mutant id: [theorem names]}"""
import json, sys
tight = json.load(open(sys.argv[1]))
lines = []
for f in sys.argv[2:]:
    for l in open(f):
        r = json.loads(l)
        lines.append({"id": r["id"], "file": r["file"], "definition": r["definition"],
            "edit": r["edit"] + ": `" + r["old"].strip() + "` -> `" + r["new"].strip() + "`",
            "claim_broken": r["claim"], "theorems_failed": r["theorems_failed"],
            "theorems_tightened": tight.get(r["id"], []), **({"error": r["error"]} if r.get("error") else {})})
with open("/verif/seeded/LOG.jsonl", "w") as o:
    for l in lines: o.write(json.dumps(l) + "\n")
print(len(lines), [l["id"] for l in lines if not l["theorems_failed"]])
