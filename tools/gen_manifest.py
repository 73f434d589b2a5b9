#!/usr/bin/env python3
"""Writes MANIFEST.json.  Theorems of property Cnn are all theorems whose name starts with 'Cnn_'
in rocq/theories/Props*.v; status and note come from the table below."""
import json, re, glob, os
root = os.path.dirname(os.path.dirname(os.path.abspath(__file__)))
thms = {}
for f in sorted(glob.glob(root + "/rocq/theories/Props*.v")):
    for n in re.findall(r"^Theorem (C\d\d\w*)", open(f).read(), re.M):
        thms.setdefault(n.split("_")[0], []).append(n)
notes = json.load(open(root + "/tools/notes.json"))
claims = []
for l in open(root + "/properties.jsonl"):
    i = json.loads(l)["id"]
    t = thms.get(i, [])
    n = notes.get(i, {})
    if not t and "status" not in n:
        continue
    claims.append({"property": i, "status": n.get("status", "proved"), "theorems": t, "note": n.get("note", "")})
json.dump({"claims": claims}, open(root + "/MANIFEST.json", "w"), indent=1)
print(len(claims), "claims", sum(len(c["theorems"]) for c in claims), "theorems")
