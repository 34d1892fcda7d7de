#!/usr/bin/env python3
"""Append the results of a batch of wrong programs to seeded/LOG.jsonl.

usage: log.py BATCH.json RESULTS [REMARKS.json]

RESULTS: output of mutate.py; REMARKS.json: {id: {"tightened": [...], "note": "..."}}.
"""
import json, os, sys
root = os.path.dirname(os.path.dirname(os.path.abspath(__file__)))
log = os.path.join(root, "seeded/LOG.jsonl")
batch = {m["id"]: m for m in json.load(open(sys.argv[1]))}
remarks = json.load(open(sys.argv[3])) if len(sys.argv) > 3 else {}
have = {json.loads(l)["id"] for l in open(log)}
with open(log, "a") as out:
    for line in open(sys.argv[2]):
        if not line.startswith("{"):
            continue
        r = json.loads(line)
        m, n = batch[r["id"]], remarks.get(r["id"], {})
        if r["id"] in have:
            continue
        x = {"id": r["id"], "file": "rocq/theories/" + r["file"], "definition": r["definition"], "edit": r["edit"], "replaced": m["old"], "by": m["new"]}
        if m.get("also"):
            x["also"] = m["also"]
        x.update({"claim_broken": r["breaks"].split(), "lemmas_failed": r["failed_lemmas"], "theorems_failed": r["theorems_failed"], "caught": bool(r["caught"]),
                  "theorems_tightened": n.get("tightened", [])})
        if n.get("note"):
            x["note"] = n["note"]
        out.write(json.dumps(x) + "\n")
