#!/usr/bin/env python3
"""Writes MANIFEST.json: theorem names are collected from rocq/theories/Props*.v (a theorem belongs to
the property whose id starts its name); statuses follow from the names (a `_refuted` or `_partial`
theorem makes the property partial) and notes come from tools/notes.json."""
import glob, json, os, re
root = os.path.join(os.path.dirname(os.path.abspath(__file__)), "..")
props = [json.loads(l) for l in open(os.path.join(root, "properties.jsonl"))]
notes = json.load(open(os.path.join(root, "tools", "notes.json")))
ths = {}
for f in sorted(glob.glob(os.path.join(root, "rocq", "theories", "Props*.v"))):
    for m in re.finditer(r"^Theorem (C\d+)_(\w+)", open(f).read(), re.M):
        ths.setdefault(m.group(1), []).append(m.group(1) + "_" + m.group(2))
claims = []
for p in props:
    i = p["id"]
    t = ths.get(i, [])
    n = notes.get(i, "")
    if not t:
        continue
    status = "partial" if any(x.endswith(("_refuted", "_partial")) for x in t) else "proved"
    claims.append({"property": i, "status": status, "theorems": t, "note": n})
json.dump({"claims": claims}, open(os.path.join(root, "MANIFEST.json"), "w"), indent=1)
print(len(claims), "of", len(props))
