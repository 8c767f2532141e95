#!/usr/bin/env python3
"""Regenerates MANIFEST.json: every Theorem Cnn_* in theories/Prop*.v is attached to property Cnn.
tools/notes.json gives {Cnn: {"status":..., "note":...}} overrides."""
import re, json, glob, os
root = os.path.dirname(os.path.dirname(os.path.abspath(__file__)))
th = {}
for f in sorted(glob.glob(root + "/rocq/theories/Prop*.v")):
    for m in re.finditer(r"^Theorem ((C\d+)_\w+)", open(f).read(), re.M):
        th.setdefault(m.group(2), []).append(m.group(1))
notes = json.load(open(root + "/tools/notes.json"))
claims = []
for line in open(root + "/properties.jsonl"):
    p = json.loads(line); i = p["id"]
    n = notes.get(i, {})
    if i in th:
        st = n.get("status", "partial" if any(t.endswith("_partial") for t in th[i]) else "proved")
        claims.append({"property": i, "status": st, "theorems": th[i], "note": n.get("note", p["title"])})
    elif n.get("status") == "not_applicable":
        claims.append({"property": i, "status": "not_applicable", "theorems": [], "note": n["note"]})
    else:
        print("no theorem yet:", i)
json.dump({"claims": claims}, open(root + "/MANIFEST.json", "w"), indent=1)
