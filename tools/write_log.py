#!/usr/bin/env python3
"""Turn the outputs of mutate.py into seeded/LOG.jsonl (one line per wrong program).
usage: write_log.py out1 out2 ...   Lines already in the log (same file/old/new) are replaced."""
import json, sys, os
V = "/verif"; path = V + "/seeded/LOG.jsonl"
log = {}
if os.path.exists(path):
    for l in open(path):
        if l.strip():
            r = json.loads(l); log[(r["file"], r["old"], r["new"])] = r
for f in sys.argv[1:]:
    for l in open(f):
        r = json.loads(l)
        err = r.get("error", "")
        if err and not err.startswith("assumptions"): continue
        log[(r["file"], r["old"], r["new"])] = {
            "definition": r["file"] + "." + r["definition"], "file": r["file"],
            "edit": r.get("edit") or f"{r['old']} -> {r['new']}", "old": r["old"], "new": r["new"],
            "claim": ", ".join(r["claims"]) or "(none listed when seeded)",
            "theorems_failed": r.get("failed", []), "claims_failed": r.get("claims_failed", []),
            "missed": r.get("missed", []), "tightened": r.get("tightened", log.get((r["file"], r["old"], r["new"]), {}).get("tightened", []))}
with open(path, "w") as o:
    for r in log.values(): o.write(json.dumps(r) + "\n")
print(len(log), "entries;", sum(1 for r in log.values() if r["missed"]), "with misses")
