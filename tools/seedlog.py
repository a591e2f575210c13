#!/usr/bin/env python3
"""seeded/RESULTS.jsonl (written by mutate.py, not committed) -> seeded/LOG.jsonl, one line per attempt.
seeded/TIGHTENED.json says, for survivors, which theorems were added or tightened because of them."""
import json, os
R = os.path.join(os.path.dirname(os.path.abspath(__file__)), "..", "seeded")
tight = json.load(open(R + "/TIGHTENED.json"))
with open(R + "/LOG.jsonl", "w") as out:
    for l in open(R + "/RESULTS.jsonl"):
        m = json.loads(l)
        if m["result"] == "killed" or m["result"] == "survived":
            failed = m.get("theorems", [])
            e = {"id": m["id"], "definition": m["file"], "edit": {"from": m["old"], "to": m["new"]}, "breaks": m["claim"],
                 "result": m["result"], "theorems_failed": failed,
                 "failed_because_of": m.get("lemmas", []), "examples_failed": m.get("examples", []),
                 "theorems_tightened": tight.get(m["id"], []) if m["result"] == "survived" else []}
            if m["result"] == "killed" and m["id"] in tight: e["note"] = tight[m["id"]][0]
            out.write(json.dumps(e) + "\n")
