#!/usr/bin/env python3
"""usage: addprop.py ID title statement quantifier why anchors(comma)"""
import json, sys, os
root = os.path.dirname(os.path.dirname(os.path.abspath(__file__)))
i, t, s, q, w, a = sys.argv[1:7]
p = root + "/properties.jsonl"
L = [json.loads(l) for l in open(p)]
L = [x for x in L if x["id"] != i] + [dict(id=i, title=t, statement=s, quantifier=q, why_tests_cant=w, anchors=a.split(","))]
L.sort(key=lambda x: int(x["id"][1:]))
open(p, "w").write("".join(json.dumps(x) + "\n" for x in L))
