#!/usr/bin/env python3
"""Regenerates the table of DESIGN.md (between the markers) from properties.jsonl, MANIFEST.json and the sources."""
import json, os, re, glob
root = os.path.dirname(os.path.dirname(os.path.abspath(__file__)))
th = {}
req = {}
for f in glob.glob(root + "/rocq/theories/*.v"):
    s = open(f).read(); b = os.path.basename(f)[:-2]
    for g in re.finditer(r"^\s*Theorem\s+(\w+)", s, re.M): th[g.group(1)] = b
    req[b] = sorted(set(x for g in re.finditer(r"From Verif Require Import ([^.]*)\.", s) for x in g.group(1).split() if x.endswith("Model")))
P = [json.loads(l) for l in open(root + "/properties.jsonl")]
M = {c["property"]: c for c in json.load(open(root + "/MANIFEST.json"))["claims"]}
out = ["| id | property | model | theorems in | status | what is missing or false |", "|----|----|----|----|----|----|"]
for p in P:
    c = M[p["id"]]
    fs = sorted(set(th[t] for t in c["theorems"]))
    ms = sorted(set(m for f in fs for m in req[f]) | set(f for f in fs if f.endswith("Model")))
    out.append("| %s | %s | %s | %s | %s | %s |" % (p["id"], p["title"], ", ".join(ms), ", ".join(fs), c["status"], c.get("note", "")))
d = open(root + "/DESIGN.md").read()
a, b = "<!-- table -->\n", "<!-- end of table -->"
i, j = d.index(a) + len(a), d.index(b)
open(root + "/DESIGN.md", "w").write(d[:i] + "\n".join(out) + "\n" + d[j:])
