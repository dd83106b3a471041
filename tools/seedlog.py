#!/usr/bin/env python3
"""seedlog.py OUT...: append the results of mutate.py to seeded/LOG.jsonl.
Entries already logged under the same name are skipped."""
import json, os, sys
log = os.path.join(os.path.dirname(os.path.abspath(__file__)), "..", "seeded", "LOG.jsonl")
done = {json.loads(l)["name"] for l in open(log)}
with open(log, "a") as f:
    for p in sys.argv[1:]:
        for l in open(p):
            d = json.loads(l)
            if d["name"] in done: continue
            e = {"name": d["name"], "definition": d["definition"], "edit": d["edit"], "claim": d["claim"],
                 "theorems_failed": d["failed_theorems"], "proofs_failed": d["failed_proofs"],
                 "theorems_tightened": d.get("tightened", [])}
            if d.get("targets"): e["looked_at"] = d["targets"]
            if d["stuck"]:
                e["note"] = "the rebuild did not finish: a later proof does not terminate on the edited model; theorems_failed is not complete"
            f.write(json.dumps(e) + "\n"); done.add(d["name"])
