#!/usr/bin/env python3
"""Regenerate rocq/_CoqProject: the flag line followed by every theory file."""
import glob, os
root = os.path.join(os.path.dirname(os.path.abspath(__file__)), "..", "rocq")
files = sorted(os.path.relpath(f, root) for f in glob.glob(os.path.join(root, "theories", "*.v")))
with open(os.path.join(root, "_CoqProject"), "w") as f:
    f.write("-Q theories Verif\n")
    for x in files:
        f.write(x + "\n")
