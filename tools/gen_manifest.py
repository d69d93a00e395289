#!/usr/bin/env python3
"""Regenerates /verif/MANIFEST.json from the theorem names in theories/Props_*.v."""
import json, re, glob, os
root = os.path.dirname(os.path.dirname(os.path.abspath(__file__)))
notes = json.load(open(root + "/tools/notes.json"))
thms = {}
for f in sorted(glob.glob(root + "/rocq/theories/Props_*.v")):
    for m in re.finditer(r"^Theorem\s+(C\d\d)(_\w+)", open(f).read(), re.M):
        thms.setdefault(m.group(1), []).append(m.group(1) + m.group(2))
claims = []
for line in open(root + "/properties.jsonl"):
    c = json.loads(line)["id"]
    if c not in thms: continue
    t = thms[c]
    st = "partial" if any(x.endswith(("_refuted", "_partial")) for x in t) else "proved"
    claims.append({"property": c, "status": st, "theorems": t, "note": notes.get(c, "")})
json.dump({"claims": claims}, open(root + "/MANIFEST.json", "w"), indent=1)
print(len(claims), "claims,", sum(len(c["theorems"]) for c in claims), "theorems,",
      [c["property"] for c in claims if not c["note"]])
