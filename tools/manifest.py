#!/usr/bin/env python3
"""Rebuild MANIFEST.json from the theorem names in rocq/theories/Props*.v and the
notes in tools/notes.json ({"C01": {"status": "...", "note": "..."}})."""
import glob, json, os, re
here = os.path.dirname(os.path.abspath(__file__))
root = os.path.dirname(here)
notes = json.load(open(os.path.join(here, "notes.json")))
ids = [json.loads(l)["id"] for l in open(os.path.join(root, "properties.jsonl")) if l.strip()]
thms = {i: [] for i in ids}
for f in sorted(glob.glob(os.path.join(root, "rocq/theories/Props*.v"))):
    for m in re.finditer(r"^Theorem (C(\d\d)_\w+)", open(f).read(), re.M):
        thms["C" + m.group(2)].append(m.group(1))
claims = []
for i in ids:
    n = notes.get(i, {})
    if not thms[i] and n.get("status") != "not_applicable":
        continue
    claims.append({"property": i, "status": n.get("status", "proved"), "theorems": thms[i], "note": n.get("note", "")})
json.dump({"claims": claims}, open(os.path.join(root, "MANIFEST.json"), "w"), indent=1)
print(len(claims), "claims;", [i for i in ids if not thms[i]], "without theorems")
