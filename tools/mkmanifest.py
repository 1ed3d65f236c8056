#!/usr/bin/env python3
"""Write MANIFEST.json: for each property of properties.jsonl, the theorems of rocq/theories/Props named after it."""
import glob, json, os, re
root = os.path.dirname(os.path.dirname(os.path.abspath(__file__)))
thms = {}
for f in sorted(glob.glob(root + "/rocq/theories/Props/*.v")):
    for n in re.findall(r"^Theorem (C\d\d+\w*)", open(f).read(), re.M):
        thms.setdefault(n.split("_")[0], []).append(n)
notes = json.load(open(root + "/tools/notes.json"))
claims = []
for line in open(root + "/properties.jsonl"):
    p = json.loads(line)["id"]
    ts = thms.get(p, [])
    n = notes.get(p, "")
    partial = any(t.endswith("_partial") for t in ts) or n.startswith("Missing:")
    if not ts:
        print("no theorem for", p)
        n = n or "Missing: no theorem yet."
    claims.append({"property": p, "status": "partial" if partial or not ts else "proved", "theorems": ts, "note": n})
json.dump({"claims": claims}, open(root + "/MANIFEST.json", "w"), indent=1)
open(root + "/MANIFEST.json", "a").write("\n")
