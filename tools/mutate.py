#!/usr/bin/env python3
"""Apply one edit to the model in a scratch copy and report which theorems still stand.

usage: mutate.py SCRATCH EDITS.json
EDITS.json is a list of {"file", "definition", "old", "new", "claim"}.

The scratch copy is made from /verif/rocq/theories including compiled files.  After
the edit every dependent file is recompiled.  A proof that fails is replaced by
"Admitted." (in the scratch copy only) and compilation goes on, so that the set of
property theorems whose Print Assumptions is no longer closed is exactly the set of
theorems that do not survive the edit.  MUTSKIP (a regular expression) leaves out files,
with what depends on them.
"""
import json, os, re, shutil, subprocess, sys

SRC = os.environ.get("MUTSRC", "/verif/rocq/theories")
TIMEOUT = 240

def deps():
    out = subprocess.run(["coqdep", "-Q", ".", "Verif"] + sorted(f for f in os.listdir(".") if f.endswith(".v")),
                         capture_output=True, text=True).stdout
    d = {}
    for line in out.splitlines():
        if ":" not in line: continue
        l, r = line.split(":", 1)
        t = [x for x in l.split() if x.endswith(".vo")]
        if t:
            d[t[0][:-1]] = [x[:-1] for x in r.split() if x.endswith(".vo") and not x.startswith("/")]
    return d

def order(d, root):
    aff = {root}
    changed = True
    while changed:
        changed = False
        for f, ds in d.items():
            if f not in aff and any(x in aff for x in ds):
                aff.add(f); changed = True
    res = []
    def visit(f):
        if f in res or f not in aff: return
        for x in d.get(f, []): visit(x)
        res.append(f)
    for f in sorted(aff): visit(f)
    return res

def admit_at(text, pos):
    """Replace the proof around character [pos] by Admitted; None if there is none."""
    starts = [m for m in re.finditer(r"\bProof\b[^.]*\.", text) if m.start() <= pos]
    if not starts: return None
    st = starts[-1]
    en = re.search(r"\b(Qed|Defined)\.", text[st.end():])
    if en is None: return None
    end = st.end() + en.end()
    if pos > end: return None
    names = re.findall(r"\b(?:Lemma|Theorem|Example|Corollary|Fact|Remark|Instance|Definition|Fixpoint)\s+([A-Za-z0-9_']+)", text[:st.start()])
    return names[-1], text[:st.start()] + "Admitted." + text[end:]

def proofs(text):
    """(start of Proof, end of Qed, name) of every opaque proof."""
    res = []
    for st in re.finditer(r"\bProof\b[^.]*\.", text):
        en = re.search(r"\b(Qed|Defined)\.", text[st.end():])
        if en is None: continue
        names = re.findall(r"\b(?:Lemma|Theorem|Example|Corollary|Fact|Remark|Instance|Definition|Fixpoint)\s+([A-Za-z0-9_']+)", text[:st.start()])
        res.append((st.start(), st.end() + en.end(), names[-1]))
    return res

def admit_all(f):
    """One pass with the toplevel: admit every proof that fails; returns their names."""
    text = open(f).read()
    ps = proofs(text)
    script, pos = "Set Silent.\nSet Default Timeout 25.\n", 0
    for k, (a, b, _) in enumerate(ps):
        script += text[pos:b] + "\nAdmitted.\nCheck mark_%d_.\n" % k
        pos = b
    r = subprocess.run("ulimit -v 6000000; exec timeout 1200 coqtop -q -color no -Q . Verif", shell=True,
                       input=script, capture_output=True, text=True)
    out = r.stdout + r.stderr if not r.stderr else r.stderr
    parts = re.split(r"mark_\d+_ was not found", out)
    bad = []
    for k, p in enumerate(parts[:-1]):
        if k < len(ps) and "No focused proof" not in p: bad.append(k)
    new, pos = "", 0
    for k in bad:
        a, b, _ = ps[k]
        new += text[pos:a] + "Admitted."
        pos = b
    open(f, "w").write(new + text[pos:])
    return [ps[k][2] for k in bad]

def compile_file(f):
    admitted, first = [], True
    while True:
        text = open(f).read()
        try:
            r = subprocess.run("ulimit -v 6000000; exec timeout %d coqc -time -Q . Verif %s" % (TIMEOUT, f), shell=True,
                               capture_output=True, text=True)
        except Exception as e:
            return None, admitted, str(e)
        if r.returncode == 0:
            return r.stdout, admitted, None
        if first:
            first = False
            got = admit_all(f)
            admitted += got
            if got: continue
        m = re.search(r'File "[^"]*", line (\d+), characters (\d+)-(\d+):\s*\nError', r.stderr)
        btext = text.encode()
        if m:
            lines = btext.split(b"\n")
            pos = sum(len(x) + 1 for x in lines[:int(m.group(1)) - 1]) + int(m.group(2))
        else:
            ch = re.findall(r"Chars (\d+) - (\d+) ", r.stdout)
            if not ch: return None, admitted, r.stderr[-300:]
            pos = int(ch[-1][1]) + 1
        pos = len(btext[:pos].decode(errors="ignore"))
        a = admit_at(text, pos)
        if a is None:
            return None, admitted, r.stderr[-400:]
        admitted.append(a[0])
        open(f, "w").write(a[1])

def run(scratch, e):
    if os.path.exists(scratch): shutil.rmtree(scratch)
    shutil.copytree(SRC, scratch)
    os.chdir(scratch)
    for fe in ([e] + e.get("more", [])):
        t = open(fe["file"]).read()
        if t.count(fe["old"]) != 1:
            return {"error": "old text occurs %d times in %s" % (t.count(fe["old"]), fe["file"])}
        open(fe["file"], "w").write(t.replace(fe["old"], fe["new"]))
    failed_lemmas, failed, stood, examples, broken = [], [], [], [], []
    d = deps()
    skip = os.environ.get("MUTSKIP")
    out = set(x for f in d if skip and re.match(skip, f) and f != e["file"] for x in order(d, f))
    todo = [f for f in order(d, e["file"]) if f not in out]
    for f in todo:
        out, adm, err = compile_file(f)
        if err is not None:
            broken.append((f, err)); break
        if f.startswith("P_"):
            examples += [x for x in adm if not re.search(r"Theorem\s+" + x + r"\b", open(f).read())]
            names = re.findall(r"^Print Assumptions (\S+)\.", open(f).read(), re.M)
            body = re.sub(r"^Chars .*$\n?", "", out, flags=re.M)
            parts = re.split(r"(?m)^(?=Closed under the global context|Axioms:)", body)
            parts = [p for p in parts if p.startswith(("Closed", "Axioms:"))]
            if len(parts) != len(names): broken.append((f, "assumptions %d/%d" % (len(parts), len(names))))
            for n, p in zip(names, parts):
                (stood if p.startswith("Closed") else failed).append(n)
        else:
            failed_lemmas += adm
    return {"failed": failed, "stood": stood, "lemmas": failed_lemmas, "examples": examples, "broken": broken}

if __name__ == "__main__":
    for e in json.load(open(sys.argv[2])):
        r = run(sys.argv[1], e)
        print(json.dumps({"definition": e["definition"], "edit": e.get("edit", e["old"] + "  =>  " + e["new"]),
                          "claim": e["claim"], **r}), flush=True)
