#!/usr/bin/env python3
"""Regenerate MANIFEST.json from the theorem names in rocq/theories/P_*.v and
the notes in tools/notes.json."""
import glob, json, os, re
root = os.path.dirname(os.path.dirname(os.path.abspath(__file__)))
notes = json.load(open(os.path.join(root, "tools", "notes.json")))
thms = {}
for f in sorted(glob.glob(os.path.join(root, "rocq/theories/P_*.v"))):
    for m in re.finditer(r"^Theorem (C\d\d\w*)", open(f).read(), re.M):
        thms.setdefault(m.group(1)[:3], []).append(m.group(1))
claims = []
for line in open(os.path.join(root, "properties.jsonl")):
    p = json.loads(line)["id"]
    ts = thms.get(p, [])
    n = notes.get(p, {})
    status = n.get("status", "proved" if ts else "partial")
    claims.append({"property": p, "status": status, "theorems": ts,
                   "note": n.get("note", "" if ts else "no theorem yet")})
json.dump({"claims": claims}, open(os.path.join(root, "MANIFEST.json"), "w"), indent=1)
print(sum(1 for c in claims if c["theorems"]), "of", len(claims), "have theorems")
