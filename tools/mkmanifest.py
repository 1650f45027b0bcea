#!/usr/bin/env python3
"""Write MANIFEST.json from the table below."""
import json, re, glob, os, sys
root = os.path.dirname(os.path.dirname(os.path.abspath(__file__)))
ids = [json.loads(l)["id"] for l in open(root + "/properties.jsonl")]
names = set()
for f in glob.glob(root + "/rocq/theories/*.v"):
    names |= set(re.findall(r"^\s*Theorem\s+(\w+)", open(f).read(), re.M))
notes = json.load(open(root + "/tools/notes.json"))
claims = []
for i in ids:
    th = sorted(n for n in names if n.startswith(i + "_"))
    if not th:
        st, note = "partial", notes.get(i, "not yet proved")
    else:
        part = any(n.endswith("_partial") or n.endswith("_refuted") for n in th)
        st, note = ("partial" if part else "proved"), notes.get(i, "")
    if not th:
        continue
    claims.append({"property": i, "status": st, "theorems": th, "note": note})
json.dump({"claims": claims}, open(root + "/MANIFEST.json", "w"), indent=1)
print(len(claims), "claims;", [i for i in ids if i not in {c["property"] for c in claims}], "missing")
