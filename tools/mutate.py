#!/usr/bin/env python3
"""Mutation testing of the theorems.  usage: mutate.py [area]
Each mutant of seeded/mutants.py edits one model definition in a scratch copy, rebuilds,
and appends the outcome to seeded/LOG.jsonl."""
import json, os, re, subprocess, sys, shutil
root = os.path.dirname(os.path.dirname(os.path.abspath(__file__)))
SCR = "/tmp/mut"
M = []
def m(area, file, definition, old, new, claim):
    M.append((area, file, definition, old, new, claim))
exec(open(root + "/seeded/mutants.py").read())
log = root + "/seeded/LOG.jsonl"
done = set()
if os.path.exists(log):
    for l in open(log):
        d = json.loads(l)
        if d["outcome"] != "SURVIVED" or d["tightened"]: done.add((d["definition"], d["edit"]))
def lemma_at(path, line):
    name = None
    for i, l in enumerate(open(path), 1):
        if i > line: break
        g = re.match(r"\s*(?:Theorem|Lemma|Example|Definition|Fixpoint)\s+(\w+)", l)
        if g: name = g.group(1)
    return name
area = sys.argv[1] if len(sys.argv) > 1 else None
files = [l.strip() for l in open(root + "/rocq/_CoqProject") if l.strip().endswith(".v")]
subprocess.run("rm -rf %s_base; cp -a %s/rocq %s_base" % (SCR, root, SCR), shell=True, check=True)
for (ar, f, d, old, new, claim) in M:
    if area and ar != area: continue
    edit = "%s  ==>  %s" % (" ".join(old.split()), " ".join(new.split()))
    if (d, edit) in done: continue
    subprocess.run("rm -rf %s; cp -a %s_base %s" % (SCR, SCR, SCR), shell=True, check=True)
    p = "%s/theories/%s.v" % (SCR, f)
    s = open(p).read()
    # locate the definition
    g = re.search(r"^\s*(?:Definition|Fixpoint|with|Inductive|Record)\s+%s\b" % re.escape(d), s, re.M)
    assert g, d
    j = s.find(old, g.start())
    assert j >= 0, ("old text not found", d, old)
    end = s.find("\n\n", g.start())
    open(p, "w").write(s[:j] + new + s[j+len(old):])
    r = subprocess.run("cd %s && coq_makefile -f _CoqProject -o Makefile >/dev/null && timeout 1500 make -k -j4 2>&1" % SCR, shell=True, capture_output=True, text=True)
    fails = []
    for fm, ln in re.findall(r'File "\./theories/(\w+)\.v", line (\d+), characters [^\n]*\n(?=Error)', r.stdout):
        fails.append("%s.%s" % (fm, lemma_at("%s/theories/%s.v" % (SCR, fm), int(ln))))
    res = dict(definition=d, file=f, edit=edit, claim=claim, failed=fails,
               outcome="caught" if fails else ("SURVIVED" if r.returncode == 0 else "build error"), tightened=[])
    if not fails and r.returncode != 0: print(r.stdout[-1500:])
    print(res["outcome"], d, "|", edit, "|", fails, flush=True)
    open(log, "a").write(json.dumps(res) + "\n")
