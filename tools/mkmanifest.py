#!/usr/bin/env python3
"""Regenerate MANIFEST.json from the theorem names in rocq/theories/P_*.v
(prefix Cxx_) and the notes in tools/notes.json."""
import glob, json, os, re
here = os.path.dirname(os.path.abspath(__file__))
root = os.path.join(here, "..")
props = [json.loads(l)["id"] for l in open(os.path.join(root, "properties.jsonl"))]
notes = json.load(open(os.path.join(here, "notes.json")))
thms = {p: [] for p in props}
for f in sorted(glob.glob(os.path.join(root, "rocq", "theories", "P_*.v"))):
    for m in re.finditer(r"^Theorem\s+(C\d\d+)_(\w+)", open(f).read(), re.M):
        thms[m.group(1)].append(m.group(1) + "_" + m.group(2))
claims = []
for p in props:
    n = notes.get(p, {})
    st = n.get("status", "proved" if thms[p] else "todo")
    if st == "todo":
        continue
    claims.append({"property": p, "status": st, "theorems": thms[p], "note": n.get("note", "")})
json.dump({"claims": claims}, open(os.path.join(root, "MANIFEST.json"), "w"), indent=1)
print(len(claims), "claims,", sum(len(c["theorems"]) for c in claims), "theorems; missing:",
      [p for p in props if not thms[p]])
