#!/usr/bin/env python3
"""Regenerate MANIFEST.json, properties.jsonl and the file list of rocq/_CoqProject.

Theorems are assigned to properties by their name prefix (Cnn_)."""
import glob, json, os, re, runpy
here = os.path.dirname(os.path.dirname(os.path.abspath(__file__)))
th = os.path.join(here, "rocq", "theories")
notes = {}
nf = os.path.join(here, "tools", "notes.json")
if os.path.exists(nf):
    notes = json.load(open(nf))
props = runpy.run_path(os.path.join(here, "tools", "props.py"))["P"]
with open(os.path.join(here, "properties.jsonl"), "w") as f:
    for q in props:
        f.write(json.dumps(q) + "\n")
thms = {}
for fn in sorted(glob.glob(os.path.join(th, "P_*.v"))):
    txt = open(fn).read()
    txt = re.sub(r"\(\*.*?\*\)", "", txt, flags=re.S)
    for m in re.finditer(r"\bTheorem\s+(C\d+)_(\w+)", txt):
        thms.setdefault(m.group(1), []).append(m.group(1) + "_" + m.group(2))
claims = []
for q in props:
    i = q["id"]
    names = thms.get(i, [])
    n = notes.get(i, {})
    if not names:
        status = n.get("status", "not_applicable")
    elif any(t.endswith("_partial") for t in names):
        status = "partial"
    else:
        status = n.get("status", "proved")
    note = n.get("note", "")
    ref = [t for t in names if t.endswith("_refuted")]
    if ref:
        note = ("Part of the statement that the code violates is refuted by " + ", ".join(ref) + ". " + note).strip()
    if not names and not note:
        note = "no theorem yet"
    claims.append(dict(property=i, status=status, theorems=names, note=note))
json.dump({"claims": claims}, open(os.path.join(here, "MANIFEST.json"), "w"), indent=1)
files = sorted(os.path.basename(x) for x in glob.glob(os.path.join(th, "*.v")))
order = {"M": 0, "S": 1, "L": 2, "P": 3}
files.sort(key=lambda x: (order.get(x[0], 9), x))
with open(os.path.join(here, "rocq", "_CoqProject"), "w") as f:
    f.write("-Q theories Verif\n" + "".join("theories/%s\n" % x for x in files))
extra = set(thms) - {q["id"] for q in props}
print("claims", len(claims), "without theorem:", [c["property"] for c in claims if not c["theorems"]], "unknown:", extra)
