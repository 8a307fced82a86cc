#!/usr/bin/env python3
"""Assemble DESIGN.md from design_head.md, design_tail.md, notes.json and P_*.v.
tools/assumptions.json (from tools/mkassumptions.sh) gives what Print Assumptions lists."""
import glob, json, os, re
here = os.path.dirname(os.path.abspath(__file__))
root = os.path.join(here, "..")
notes = json.load(open(os.path.join(here, "notes.json")))
props = [json.loads(l) for l in open(os.path.join(root, "properties.jsonl"))]
assum = {}
if os.path.exists(os.path.join(here, "assumptions.json")):
    assum = json.load(open(os.path.join(here, "assumptions.json")))
thms, comments = {}, {}
for f in sorted(glob.glob(os.path.join(root, "rocq", "theories", "P_*.v"))):
    s = open(f).read()
    last = ""
    for m in re.finditer(r"\(\*\*((?:(?!\*\)).)*)\*\)|^Theorem (C\d\d+)(_\w+)", s, re.S | re.M):
        if m.group(2):
            n = m.group(2) + m.group(3)
            thms.setdefault(m.group(2), []).append((n, os.path.basename(f)))
            comments[n] = last
            last = ""
        else:
            last = " ".join(m.group(1).split())
out = open(os.path.join(here, "design_head.md")).read()
out += "\n## Properties\n"
for p in props:
    n = notes.get(p["id"], {})
    ts = thms.get(p["id"], [])
    out += "\n### %s %s\n\n%s\n\nStatus: %s. %s\n\nTheorems (%s): %s\n" % (
        p["id"], p["title"], p["statement"], n.get("status", "?"), n.get("note", ""),
        ", ".join(sorted(set(f for _, f in ts))), ", ".join("`%s`" % t for t, _ in ts))
out += "\n## Findings proved as theorems\n\n"
for p in props:
    for t, f in thms.get(p["id"], []):
        if t.endswith("_refuted"):
            out += "* `%s`: %s\n" % (t, comments[t])
out += open(os.path.join(here, "design_tail.md")).read()
out += "\n## Theorems and their assumptions\n\n"
closed = [t for p in props for t, _ in thms.get(p["id"], []) if assum.get(t) == "Closed under the global context"]
rest = [t for p in props for t, _ in thms.get(p["id"], []) if assum.get(t) != "Closed under the global context"]
out += "`Print Assumptions` answers \"Closed under the global context\" for the following %d theorems:\n%s.\n" % (len(closed), ", ".join(closed))
if rest:
    out += "\nOther answers:\n\n"
    for t in rest:
        out += "* `%s`: %s\n" % (t, assum.get(t, "(not run)"))
open(os.path.join(root, "DESIGN.md"), "w").write(out)
print(len(closed), "closed;", len(rest), "other:", rest[:10])
