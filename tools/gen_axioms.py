#!/usr/bin/env python3
"""Rewrite section 5 of DESIGN.md from what Print Assumptions says.
Needs a finished build in ../rocq."""
import os, re, subprocess, collections
V = os.path.join(os.path.dirname(os.path.abspath(__file__)), "..")
R = os.path.join(V, "rocq")
os.makedirs("/tmp/axioms", exist_ok=True)
per = collections.OrderedDict()
for f in sorted(x for x in os.listdir(os.path.join(R, "theories")) if x.startswith("T_") and x.endswith(".v")):
    src = open(os.path.join(R, "theories", f)).read()
    names = re.findall(r"^Print Assumptions (\w+)", src, re.M)
    out = subprocess.run(["coqc", "-Q", "theories", "Verif", "-o", "/tmp/axioms/" + f + "o", "theories/" + f], cwd=R, text=True, stdout=subprocess.PIPE).stdout
    blocks = re.split(r"^(?=Closed under|Axioms:)", out, flags=re.M)[1:]
    assert len(names) == len(blocks), (f, len(names), len(blocks))
    for n, b in zip(names, blocks):
        ax = () if b.startswith("Closed") else tuple(sorted(set(re.findall(r"^([A-Za-z_][\w.']*)\s*(?::|$)", b[len("Axioms:"):], re.M))))
        per[n] = (f[:-2], ax)
groups = collections.OrderedDict()
for n, (f, ax) in sorted(per.items(), key=lambda x: (len(x[1][1]), x[1][1], x[0])):
    groups.setdefault(ax, []).append(n)
L = ["## 5. Print Assumptions, per theorem", "",
     "Generated by `tools/gen_axioms.py` from the output of the `Print Assumptions`",
     "command below each theorem (%d theorems).  Every axiom listed belongs to Coq's" % len(per), "standard library.", ""]
for ax, ns in groups.items():
    L.append("* **" + ("Closed under the global context (no axioms)" if not ax else ", ".join("`%s`" % a for a in ax)) + "** (%d):" % len(ns))
    L.append("  " + ", ".join("`%s`" % n for n in ns) + ".")
    L.append("")
p = os.path.join(V, "DESIGN.md")
s = open(p).read()
s = re.sub(r"\n## 5\. Print Assumptions.*?(?=\n## |\Z)", "", s, flags=re.S).rstrip("\n")
open(p, "w").write(s + "\n\n" + "\n".join(L))
for ax, ns in groups.items(): print(len(ns), ax)
