#!/usr/bin/env python3
"""Set one claim of MANIFEST.json: claim.py ID STATUS "Thm1 Thm2" "note" (repeatable from stdin as
tab separated lines)."""
import json, os, sys
P = os.path.join(os.path.dirname(__file__), "..", "MANIFEST.json")
m = json.load(open(P)) if os.path.exists(P) else {"claims": []}
d = {c["property"]: c for c in m["claims"]}
for line in sys.stdin:
    line = line.rstrip("\n")
    if not line: continue
    pid, status, thms, note = line.split("\t")
    assert status in ("proved", "partial", "not_applicable")
    d[pid] = {"property": pid, "status": status, "theorems": thms.split(), "note": note}
m["claims"] = [d[k] for k in sorted(d)]
json.dump(m, open(P, "w"), indent=1, ensure_ascii=False)
