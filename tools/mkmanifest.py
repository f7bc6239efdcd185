#!/usr/bin/env python3
"""Write /verif/MANIFEST.json from the theorem names found in rocq/theories/*Props.v
and the notes below.  Every theorem called Cnn_... belongs to property Cnn."""
import json, re, glob, os
V = os.path.dirname(os.path.dirname(os.path.abspath(__file__)))
NOTES = json.load(open(os.path.join(V, "tools", "notes.json")))
props = [json.loads(l)["id"] for l in open(os.path.join(V, "properties.jsonl"))]
thms = {}
for f in sorted(glob.glob(os.path.join(V, "rocq/theories/*Props.v"))):
    for m in re.finditer(r"^Theorem (C\d\d\w*)", open(f).read(), re.M):
        thms.setdefault(m.group(1)[:3], []).append(m.group(1))
claims = []
for p in props:
    n = NOTES.get(p, {})
    if p not in thms and "status" not in n:
        print("no theorem yet:", p)
        continue
    claims.append({"property": p, "status": n.get("status", "proved"),
                   "theorems": thms.get(p, []), "note": n.get("note", "")})
json.dump({"claims": claims}, open(os.path.join(V, "MANIFEST.json"), "w"), indent=1)
