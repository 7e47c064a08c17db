#!/usr/bin/env python3
"""Test the theorems against wrong programs.

usage: mutate.py MUTANTS.json RESULTS.jsonl

Works in /tmp/mut (a scratch copy of ../rocq).  A mutant is an edit of one model
file.  The copy is rebuilt; every lemma whose proof no longer goes through is
admitted (in the scratch copy only), and a theorem counts as failed if what
Print Assumptions lists for it then includes an admitted lemma.
"""
import json, os, re, subprocess, sys, time, shutil
ROOT = os.path.join(os.path.dirname(os.path.abspath(__file__)), "..", "rocq")
BASE, W = os.environ.get("MUTBASE", "/tmp/mut/base"), os.environ.get("MUTW", "/tmp/mut/w")
STD = ("ClassicalDedekindReals.", "FunctionalExtensionality.", "Classical_Prop.", "Eqdep.", "ProofIrrelevance.")
HEAD = re.compile(r"^\s*(?:#\[[^\]]*\]\s*)?(?:Local\s+|Global\s+)?(Lemma|Theorem|Example|Corollary|Fact|Remark|Instance)\s+([A-Za-z0-9_']+)")
TH = os.path.join(W, "theories")

def sh(cmd, cwd, timeout=None):
    return subprocess.run(cmd, cwd=cwd, shell=True, text=True, stdout=subprocess.PIPE, stderr=subprocess.STDOUT, timeout=timeout)

def prepare():
    os.makedirs(BASE, exist_ok=True)
    sh(f"rm -rf {BASE} && cp -a {ROOT} {BASE}", "/tmp")
    # the examples of the T_ files are not of interest here
    for f in os.listdir(os.path.join(BASE, "theories")):
        if f.startswith("T_") and f.endswith(".v"):
            p = os.path.join(BASE, "theories", f)
            t = re.sub(r"(^Example\b.*?)\bProof\b.*?\b(?:Qed|Defined)\.", lambda m: m.group(1) + "Admitted.", open(p).read(), flags=re.M | re.S)
            open(p, "w").write(t)
    r = sh("coq_makefile -f _CoqProject -o Makefile && make -j4", BASE)
    assert r.returncode == 0, r.stdout[-2000:]

def admit(fname, line):
    """replace the proof around the given line by Admitted; returns the lemma's name"""
    L = open(fname).read().split("\n")
    i = min(line, len(L)) - 1
    while i >= 0 and not HEAD.match(L[i]):
        if i < line - 1 and re.search(r"\b(Qed|Defined|Admitted)\.\s*$", L[i]) and not HEAD.match(L[i]): return None
        i -= 1
    if i < 0: return None
    name = HEAD.match(L[i]).group(2)
    text = "\n".join(L[i:])
    m = re.search(r"\bProof\b[^.]*\.", text)
    q = re.search(r"\b(Qed|Defined)\.", text)
    if not m or not q or m.start() > q.start(): return None
    new = text[:m.start()] + "Admitted." + text[q.end():]
    open(fname, "w").write("\n".join(L[:i]) + "\n" + new)
    return name

def run(mut):
    sh(f"rm -rf {W} && cp -a {BASE} {W}", "/tmp")
    f = os.path.join(TH, mut["file"] + ".v")
    s = open(f).read()
    if s.count(mut["old"]) != 1:
        return dict(mut, error="old text occurs %d times" % s.count(mut["old"]))
    open(f, "w").write(s.replace(mut["old"], mut["new"]))
    targets = mut.get("targets") or sorted(x[:-2] for x in os.listdir(TH) if x.startswith("T_") and x.endswith(".v"))
    admitted, t0 = [], time.time()
    while True:
        r = sh("make -k -j4 COQEXTRAFLAGS='-set \"Default Timeout=60\"' " + " ".join(f"theories/{t}.vo" for t in targets), W)
        if r.returncode == 0: break
        errs = re.findall(r'File "\./theories/(\w+)\.v", line (\d+), characters', r.stdout)
        # Coq warnings use the same header; keep those followed by Error
        errs = re.findall(r'File "\./theories/(\w+)\.v", line (\d+), characters [^\n]*\n(?:[^\n]*\n){0,0}Error', r.stdout) or errs
        seen, progress = set(), False
        for F, ln in errs:
            if F in seen: continue
            seen.add(F)
            if F.startswith(("M_", "S_")) and F == mut["file"]:
                return dict(mut, error="does not compile", out=r.stdout[-800:])
            n = admit(os.path.join(TH, F + ".v"), int(ln))
            if n: admitted.append(F + "." + n); progress = True
        if not progress: return dict(mut, error="stuck", admitted=admitted, out=r.stdout[-1500:])
        if time.time() - t0 > 3600: return dict(mut, error="time", admitted=admitted)
    failed, ok = [], []
    for t in targets:
        src = open(os.path.join(TH, t + ".v")).read()
        names = re.findall(r"^Print Assumptions (\w+)", src, re.M)
        out = sh(f"coqc -Q theories Verif theories/{t}.v", W).stdout
        blocks = re.split(r"^(?=Closed under|Axioms:)", out, flags=re.M)[1:]
        for n, b in zip(names, blocks):
            ax = [] if b.startswith("Closed") else [a for a in re.findall(r"^([A-Za-z_][\w.']*)\s*(?::|$)", b[len("Axioms:"):], re.M) if not a.startswith(STD)]
            (failed if ax else ok).append(n)
    return dict(mut, failed=failed, admitted=admitted, survived=len(ok), seconds=round(time.time() - t0))

if __name__ == "__main__":
    if "--noprep" not in sys.argv: prepare()
    done = set()
    if os.path.exists(sys.argv[2]):
        done = {json.loads(l)["id"] for l in open(sys.argv[2])}
    for mut in json.load(open(sys.argv[1])):
        if mut["id"] in done: continue
        try: r = run(mut)
        except Exception as e: r = dict(mut, error=repr(e))
        with open(sys.argv[2], "a") as o: o.write(json.dumps(r) + "\n")
        print(r["id"], r.get("error") or ("FAILED: " + " ".join(r["failed"]) if r["failed"] else "NOTHING FAILED"), flush=True)
