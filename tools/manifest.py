#!/usr/bin/env python3
"""Write MANIFEST.json from the theorems in rocq/theories/P_*.v.

Theorem names start with the property id.  A property with a theorem named
..._refuted or ..._partial has status "partial"; notes are in NOTES below."""
import glob, json, re, os
root = os.path.dirname(os.path.dirname(os.path.abspath(__file__)))
NOTES = json.load(open(os.path.join(root, "tools", "notes.json")))
thms = {}
for f in sorted(glob.glob(os.path.join(root, "rocq/theories/P_*.v"))):
    for m in re.finditer(r"^Theorem ((C\d+)\w*)", open(f).read(), re.M):
        thms.setdefault(m.group(2), []).append(m.group(1))
claims = []
for l in open(os.path.join(root, "properties.jsonl")):
    pid = json.loads(l)["id"]
    t = thms.get(pid, [])
    partial = not t or any(x.endswith("_refuted") or x.endswith("_partial") for x in t)
    note = NOTES.get(pid, "")
    if not t and not note:
        note = "not proved yet"
    claims.append({"property": pid, "status": "partial" if partial else "proved",
                   "theorems": t, "note": note})
json.dump({"claims": claims}, open(os.path.join(root, "MANIFEST.json"), "w"), indent=1)
print(sum(bool(c["theorems"]) for c in claims), "of", len(claims), "with theorems;",
      sum(c["status"] == "proved" for c in claims), "proved")
