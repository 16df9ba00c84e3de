#!/usr/bin/env python3
"""Rewrite section 5 of DESIGN.md from the output of `Print Assumptions`.

usage: axioms.py COMPILED      (COMPILED: a compiled copy of rocq/theories; its P_*.v are compiled again)"""
import collections, os, re, subprocess, sys

root = os.path.dirname(os.path.dirname(os.path.abspath(__file__)))
src = sys.argv[1]
groups = collections.defaultdict(list)
for f in sorted(os.listdir(src)):
    if not re.fullmatch(r"P_\w+\.v", f): continue
    names = re.findall(r"^Print Assumptions (\w+)\.", open(os.path.join(src, f)).read(), re.M)
    p = subprocess.run(["coqc", "-q", "-Q", ".", "Verif", f], cwd=src, stdout=subprocess.PIPE, stderr=subprocess.DEVNULL, text=True)
    if p.returncode: sys.exit("failed: " + f)
    blocks = re.findall(r"^(Closed under the global context|Axioms:\n(?:(?!^Axioms:|^Closed under).*\n?)*)", p.stdout, re.M)
    if len(blocks) != len(names): sys.exit("mismatch: " + f)
    for n, b in zip(names, blocks):
        groups[tuple(sorted(re.findall(r"^([A-Z]\w*(?:\.\w+)+)", b, re.M)))].append(n)
out = ["## 5. Axioms", "", "No axiom is added.  `Print Assumptions` lists, for each theorem (written by `tools/axioms.py`):", ""]
for axioms in sorted(groups, key=len):
    names = sorted(groups[axioms])
    out += ["* " + (", ".join("`%s`" % a for a in axioms) if axioms else "none (closed under the global context)") + " — %d theorems: " % len(names) + ", ".join(names) + "."]
path = os.path.join(root, "DESIGN.md")
text = open(path).read()
i = text.index("## 5. Axioms")
open(path, "w").write(text[:i] + "\n".join(out) + "\n")
print({len(k): len(v) for k, v in groups.items()})
