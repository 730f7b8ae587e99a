#!/usr/bin/env python3
"""claim.py ID status note theorem...: insert or replace a claim in tools/claims.json and rewrite MANIFEST.json."""
import json, os, subprocess, sys
here = os.path.dirname(os.path.abspath(__file__))
f = os.path.join(here, "claims.json")
cs = [c for c in json.load(open(f)) if c["property"] != sys.argv[1]]
assert sys.argv[2] in ("proved", "partial", "not_applicable")
cs.append(dict(property=sys.argv[1], status=sys.argv[2], theorems=sys.argv[4:], note=sys.argv[3]))
cs.sort(key=lambda c: c["property"])
json.dump(cs, open(f, "w"), indent=1)
sys.exit(subprocess.call([sys.executable, os.path.join(here, "gen_manifest.py")]))
