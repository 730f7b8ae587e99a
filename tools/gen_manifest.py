#!/usr/bin/env python3
"""Writes /verif/MANIFEST.json from tools/claims.json and checks that every theorem named there exists."""
import json, os, re, sys, glob
here = os.path.dirname(os.path.abspath(__file__))
root = os.path.join(here, "..")
claims = json.load(open(os.path.join(here, "claims.json")))
src = ""
for f in glob.glob(os.path.join(root, "rocq/theories/**/*.v"), recursive=True):
    src += open(f).read()
names = set(re.findall(r"^\s*(?:Theorem|Lemma|Corollary)\s+([A-Za-z0-9_']+)", src, re.M))
props = [json.loads(l)["id"] for l in open(os.path.join(root, "properties.jsonl"))]
out = []
bad = False
seen = set()
for c in claims:
    for t in c["theorems"]:
        if t not in names:
            print("missing theorem", c["property"], t); bad = True
    seen.add(c["property"]); out.append(c)
for p in props:
    if p not in seen:
        out.append(dict(property=p, status="partial", theorems=[], note="model planned in DESIGN.md, not yet proved"))
out.sort(key=lambda c: c["property"])
json.dump(dict(claims=out), open(os.path.join(root, "MANIFEST.json"), "w"), indent=1)
print(len(out), "claims;", sum(1 for c in out if c["theorems"]), "with theorems")
sys.exit(1 if bad else 0)
