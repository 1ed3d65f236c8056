#!/usr/bin/env python3
"""usage: mutlog.py MUTANTS.json RESULTS [TIGHTENED.json] -- one line of seeded/LOG.jsonl per result of mutate.py.

TIGHTENED.json: {mutant id: [theorems strengthened or added because the mutant survived]}.
"""
import json, sys
M = {m["id"]: m for m in json.load(open(sys.argv[1]))}
T = json.load(open(sys.argv[3])) if len(sys.argv) > 3 else {}
for line in open(sys.argv[2]):
    r = json.loads(line)
    if "error" in r: continue
    m = M[r["id"]]
    print(json.dumps({"id": m["id"], "file": m.get("file") or m.get("java"), "definition": m["definition"], "edit": m["edit"], "claim": m["claim"],
                      "broken_lemmas": [b[1] if isinstance(b, list) else b for b in r["broke"]], "failed": r["failed"], "tightened": T.get(m["id"], [])}, ensure_ascii=False))
