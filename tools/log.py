#!/usr/bin/env python3
"""log.py SPEC.jsonl RESULT.jsonl [NOTES.json]: one line of seeded/LOG.jsonl for each result of mutate.py.
NOTES maps the name of an edit to fields to add or replace."""
import json, os, re, sys
ROOT = os.path.abspath(os.path.join(os.path.dirname(__file__), ".."))
spec = {}
for l in open(sys.argv[1]):
    d = json.loads(l); spec[d["name"]] = d
notes = json.load(open(sys.argv[3])) if len(sys.argv) > 3 else {}
def definition(m):
    s = open(ROOT + "/rocq/theories/" + m["file"] + ".v").read()
    i = s.find(m["old"])
    if i < 0:
        return m["file"]
    i += len(m["old"]) - len(m["old"].lstrip())
    heads = list(re.finditer(r"^[ \t]*(?:Definition|Fixpoint|Inductive|Record|with|Notation)\s+([\w']+)", s[:i + 40], re.M))
    return m["file"] + "." + heads[-1].group(1) if heads else m["file"]
for l in open(sys.argv[2]):
    r = json.loads(l)
    m = spec[r["name"]]
    if "error" in r and m["name"] not in notes:
        continue
    d = {"name": m["name"], "definition": definition(m), "edit": {"old": m["old"], "new": m["new"]}, "breaks": m["claim"],
         "properties": m["props"], "failed": r.get("failed", []), "first_failures": r.get("first", []),
         "caught": r.get("caught", []), "missed": r.get("missed", []), "tightened": []}
    d.update(notes.get(m["name"], {}))
    print(json.dumps(d))
