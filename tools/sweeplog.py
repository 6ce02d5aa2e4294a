#!/usr/bin/env python3
"""sweeplog.py RESULT.jsonl NOTES.json: one line of seeded/LOG.jsonl for each edit made by sweep.py.
NOTES maps "definition|what" (or "what", or "*") to what was found about an edit that survived."""
import collections, json, sys
notes = json.load(open(sys.argv[2]))
seen = collections.Counter()
for l in open(sys.argv[1]):
    d = json.loads(l)
    seen[d["definition"]] += 1
    caught = sorted({t.split("_")[0] for t in d["failed"] if t[:1] == "C" and t[1:2].isdigit()})
    o = {"name": "sweep-%s-%d" % (d["definition"], seen[d["definition"]]), "definition": d["definition"],
         "edit": {"old": d["old"].strip(), "new": d["new"].strip()}, "breaks": "unspecified small edit: " + d["what"],
         "properties": caught, "failed": d["failed"], "first_failures": d["first"], "caught": caught, "missed": [], "tightened": []}
    if not d["failed"]:
        n = notes.get(d["definition"] + "|" + d["what"]) or notes.get(d["definition"]) or notes.get(d["what"])
        if not n:
            sys.stderr.write("no note: %s|%s\n" % (d["definition"], d["what"])); continue
        if isinstance(n, dict):
            o.update(n)
        else:
            o["note"] = n
    print(json.dumps(o, ensure_ascii=False))
