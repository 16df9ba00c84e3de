#!/usr/bin/env python3
"""Run seeded wrong programs against the theorems, in scratch copies outside /verif.

usage: mutate.py BASE JOBS MUTANTS.json OUT.jsonl
BASE is a compiled copy of rocq/theories.  For each mutant the edited model file and
everything that depends on it is recompiled; a proof that fails (or takes too long) is
replaced, in the scratch copy, by Admitted (a sentence may take 150 seconds), so that `Print Assumptions` of the property
theorems shows which of them rest on a proof that no longer goes through."""
import concurrent.futures as cf, json, os, re, shutil, subprocess, sys, threading

BASE, JOBS, MUT, OUT = sys.argv[1], int(sys.argv[2]), sys.argv[3], sys.argv[4]
LIMIT = int(os.environ.get("LIMIT", "1500"))
files = sorted(f[:-2] for f in os.listdir(BASE) if f.endswith(".v"))
deps = {}
for f in files:
    t = open(os.path.join(BASE, f + ".v")).read()
    t = re.sub(r"\(\*.*?\*\)", " ", t, flags=re.S)
    d = set()
    for m in re.finditer(r"From\s+Verif\s+Require\s+(?:Import|Export)?\s*([^.]*)\.", t):
        d |= set(m.group(1).split())
    deps[f] = d & set(files)

def topo():
    out, seen = [], set()
    def go(f):
        if f in seen: return
        seen.add(f)
        for d in sorted(deps[f]): go(d)
        out.append(f)
    for f in files: go(f)
    return out
ORDER = topo()
START = re.compile(r"^[ \t]*(?:Local |Global |#\[[^\]]*\] )?(Lemma|Theorem|Example|Corollary|Remark|Fact|Proposition)\s+(\w+)", re.M)

def enclosing(txt, off):
    best = None
    for m in START.finditer(txt):
        if m.start() <= off: best = m
        else: break
    return best

def compile_(d, f):
    """-> (ok, output, error offset, message)"""
    try:
        p = subprocess.run(["coqc", "-q", "-Q", ".", "Verif", f + ".v"], cwd=d, stdout=subprocess.PIPE, stderr=subprocess.STDOUT, timeout=LIMIT, text=True, errors="replace")
        out = p.stdout
        if p.returncode == 0: return True, out, None, ""
        m = re.search(r'File "\./%s\.v", line (\d+), characters (\d+)-(\d+):\s*\nError' % f, out)
        if not m:
            ms = list(re.finditer(r'line (\d+), characters (\d+)-(\d+)', out))
            if not ms: return False, out, None, out[-500:]
            m = ms[-1]
        txt = open(os.path.join(d, f + ".v"), "rb").read()
        lines = txt.split(b"\n")
        off = sum(len(x) + 1 for x in lines[:int(m.group(1)) - 1]) + int(m.group(2))
        off = len(txt[:off].decode("utf8", "replace"))
        return False, out, off, out[m.start():][:300]
    except subprocess.TimeoutExpired:
        # where did it stop?
        with open(os.path.join(d, f + ".time"), "w") as g:
            try: subprocess.run(["coqc", "-q", "-time", "-Q", ".", "Verif", f + ".v"], cwd=d, stdout=g, stderr=subprocess.STDOUT, timeout=LIMIT)
            except subprocess.TimeoutExpired: pass
        last = 0
        for l in open(os.path.join(d, f + ".time"), errors="replace"):
            m = re.match(r"Chars (\d+) - (\d+) ", l)
            if m: last = int(m.group(2))
        return False, "", last + 1, "timeout"

def admit(d, f, off):
    p = os.path.join(d, f + ".v")
    txt = open(p).read()
    m = enclosing(txt, off)
    if not m: return None
    pr = re.compile(r"\bProof\b[^.]*\.").search(txt, m.end())
    q = re.compile(r"\b(Qed|Defined)\s*\.").search(txt, m.end())
    if not q or not pr or pr.start() > q.start(): return None
    if q.end() < off: return None
    txt = txt[:pr.start()] + "Admitted." + " " * 0 + txt[q.end():]
    open(p, "w").write(txt)
    return m.group(2)

def blocks(out):
    res, cur = [], None
    for l in out.split("\n"):
        if l.startswith("Closed under the global context"): res.append(set()); cur = None
        elif l.startswith("Axioms:"): cur = set(); res.append(cur)
        elif cur is not None and l and not l.startswith(" "):
            cur.add(l.split()[0].split(".")[-1])
    return res

def run(i, mu):
    d = "/tmp/mut/run/%s" % mu["id"]
    shutil.rmtree(d, ignore_errors=True)
    shutil.copytree(BASE, d)
    r = dict(id=mu["id"], file=mu["file"], definition=mu["definition"], edit=mu["edit"], claim_broken=mu["claim"])
    try:
        p = os.path.join(d, mu["file"] + ".v")
        txt = open(p).read()
        if txt.count(mu["old"]) != mu.get("count", 1):
            r["invalid"] = "old text found %d times" % txt.count(mu["old"]); return r
        open(p, "w").write(txt.replace(mu["old"], mu["new"]))
        dirty, failed, thm = {mu["file"]}, [], []
        ok, out, off, msg = compile_(d, mu["file"])
        if not ok: r["invalid"] = msg; return r
        admitted = set()
        for f in ORDER:
            if f == mu["file"] or not (deps[f] & dirty): continue
            dirty.add(f)
            q = os.path.join(d, f + ".v")
            src = open(q).read()
            os.remove(q)
            open(q, "w").write("Set Default Timeout 150. " + src)
            for k in range(80):
                ok, out, off, msg = compile_(d, f)
                if ok: break
                n = admit(d, f, off) if off is not None else None
                if n is None: break
                admitted.add(n); failed.append(f + "." + n)
            if not ok:
                failed.append(f + " (file): " + msg); r.setdefault("stuck", []).append(f + ": " + msg)
                break
            if f.startswith("P_"):
                src = re.sub(r"\(\*.*?\*\)", "", open(os.path.join(d, f + ".v")).read(), flags=re.S)
                names = re.findall(r"Print Assumptions (\w+)", src)
                bl = blocks(out)
                if len(names) != len(bl): r.setdefault("stuck", []).append("blocks %s %d %d" % (f, len(names), len(bl)))
                for n, b in zip(names, bl):
                    if n in admitted or b & admitted: thm.append(n)
        r["failed_proofs"] = failed
        r["theorems_failed"] = thm
        return r
    finally:
        if not os.environ.get("KEEP"): shutil.rmtree(d, ignore_errors=True)

lock = threading.Lock()
muts = json.load(open(MUT))
done = set()
if os.path.exists(OUT):
    for l in open(OUT): done.add(json.loads(l)["id"])
with cf.ThreadPoolExecutor(JOBS) as ex:
    fs = [ex.submit(run, i, m) for i, m in enumerate(muts) if m["id"] not in done]
    for f in cf.as_completed(fs):
        r = f.result()
        with lock, open(OUT, "a") as g: g.write(json.dumps(r) + "\n")
        print(r["id"], r.get("invalid") or (r.get("stuck"), r.get("theorems_failed")), flush=True)
