#!/usr/bin/env python3
"""Append a property (JSON object on stdin, with an extra key "note" and optionally "status") to properties.jsonl and notes.json."""
import json, os, sys
V = os.path.dirname(os.path.dirname(os.path.abspath(__file__)))
p = json.load(sys.stdin)
n = {k: p.pop(k) for k in ("note", "status") if k in p}
ids = [json.loads(l)["id"] for l in open(os.path.join(V, "properties.jsonl"))]
if p["id"] not in ids:
    with open(os.path.join(V, "properties.jsonl"), "a") as f:
        f.write(json.dumps(p) + "\n")
f = os.path.join(V, "tools", "notes.json")
N = json.load(open(f)); N[p["id"]] = n
json.dump(N, open(f, "w"), indent=1)
