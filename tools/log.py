"""Appends the results of tools/mutate.py to seeded/LOG.jsonl.

usage: log.py RESULTS [ID=THEOREM,THEOREM ...]   (theorems tightened because of the mutant)"""
import json, os, sys
root = os.path.join(os.path.dirname(os.path.abspath(__file__)), "..")
tight = dict(a.split("=") for a in sys.argv[2:])
with open(os.path.join(root, "seeded/LOG.jsonl"), "a") as out:
    for line in open(sys.argv[1]):
        r = json.loads(line)
        if r.get("error") or r.get("problems"):
            print("skipped", r["id"], r.get("error") or r["problems"])
            continue
        tightened = [t for t in tight.get(r["id"], "").split(",") if t]
        entry = {"id": r["id"], "definition": r["definition"], "edit": r["edit"], "claim": r["claim"],
                 "failed": sorted(set(r["failed"])), "refuted": r["refuted"],
                 "still_proved": r["claim_theorems_alive"], "tightened": tightened}
        if r.get("note"):
            entry["note"] = r["note"]
        print(json.dumps(entry), file=out)
