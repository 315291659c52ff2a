#!/usr/bin/env python3
"""Regenerates MANIFEST.json from this table and checks that every theorem exists."""
import json, os, re, sys
root = os.path.dirname(os.path.dirname(os.path.abspath(__file__)))
T = {}
def c(pid, status, thms, note):
    T[pid] = dict(property=pid, status=status, theorems=thms.split(), note=note)
exec(open(os.path.join(root, "tools", "claims.py")).read())
src = ""
for f in sorted(os.listdir(os.path.join(root, "rocq/theories"))):
    if f.endswith(".v"):
        src += open(os.path.join(root, "rocq/theories", f)).read()
defined = set(re.findall(r"^(?:Theorem|Lemma)\s+(\w+)", src, re.M))
ids = [json.loads(l)["id"] for l in open(os.path.join(root, "properties.jsonl"))]
claims = []
for i in ids:
    if i not in T:
        print("no claim for", i); continue
    for t in T[i]["theorems"]:
        if t not in defined: print("MISSING theorem", t); sys.exit(1)
        if ("Print Assumptions %s." % t) not in src: print("no Print Assumptions for", t)
    claims.append(T[i])
json.dump({"claims": claims}, open(os.path.join(root, "MANIFEST.json"), "w"), indent=1)
print(len(claims), "claims of", len(ids))
