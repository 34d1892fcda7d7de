#!/usr/bin/env python3
"""Append the attempts of a sweep to seeded/LOG.jsonl.

usage: log_sweep.py FIRST_NUMBER SWEEP.jsonl [REMARKS.json]

REMARKS.json: {"File.definition:line" or "File.definition": {"tightened": [...], "note": "..."}} for edits which no proof noticed.
"""
import json, os, sys
root = os.path.dirname(os.path.dirname(os.path.abspath(__file__)))
log = os.path.join(root, "seeded/LOG.jsonl")
remarks = json.load(open(sys.argv[3])) if len(sys.argv) > 3 else {}
number = int(sys.argv[1])
with open(log, "a") as out:
    for line in open(sys.argv[2]):
        r = json.loads(line)
        if r["old"] == r["new"]:
            continue
        key = "%s.%s" % (os.path.basename(r["file"])[:-2], r["definition"])
        n = remarks.get("%s:%d" % (key, r["line"]), remarks.get(key, {}))
        caught = r["stopped"] != "SURVIVED"
        x = {"id": "M%d" % number, "file": "rocq/" + r["file"], "definition": r["definition"], "edit": "random edit of line %d: %s becomes %s" % (r["line"], r["old"], r["new"]),
             "replaced": r["was"], "by": r["now"], "claim_broken": n.get("broken", []), "lemmas_failed": [r["stopped"].split()[-1]] if caught else [],
             "theorems_failed": [], "caught": caught, "theorems_tightened": [] if caught else n.get("tightened", [])}
        x["note"] = "first declaration refused; the build was stopped there" if caught else n["note"]
        out.write(json.dumps(x) + "\n")
        number += 1
print(number)
