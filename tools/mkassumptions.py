#!/usr/bin/env python3
"""Compile every P_*.v (dependencies already built in rocq/theories) and record what
Print Assumptions answers for each theorem in tools/assumptions.json."""
import glob, json, os, re, subprocess, sys
here = os.path.dirname(os.path.abspath(__file__))
th = os.path.join(here, "..", "rocq", "theories")
path = os.path.join(here, "assumptions.json")
res = json.load(open(path)) if os.path.exists(path) else {}
files = sys.argv[1:] or sorted(os.path.basename(f) for f in glob.glob(os.path.join(th, "P_*.v")))
for f in files:
    names = re.findall(r"^Print Assumptions (\w+)\.", open(os.path.join(th, f)).read(), re.M)
    o = subprocess.run(["coqc", "-q", "-Q", ".", "Verif", f], cwd=th, capture_output=True, text=True)
    parts = re.split(r"(?m)^(?=Closed under the global context|Axioms:)", o.stdout)
    parts = [" ".join(x.split()) for x in parts if x.strip()]
    if o.returncode or len(parts) != len(names):
        print("PROBLEM", f, o.returncode, len(parts), len(names), o.stderr[-300:])
        continue
    for n, x in zip(names, parts):
        res[n] = x
json.dump(res, open(path, "w"), indent=1, sort_keys=True)
print(len(res), "theorems,", sum(1 for x in res.values() if x != "Closed under the global context"), "not closed")
