#!/usr/bin/env python3
"""Regenerates MANIFEST.json from the theorem names in rocq/theories/Prop*.v and
the status notes in tools/status.json. A theorem belongs to property C07 if its
name starts with c07_."""
import glob, json, os, re

root = os.path.dirname(os.path.dirname(os.path.abspath(__file__)))
props = [json.loads(l)["id"] for l in open(os.path.join(root, "properties.jsonl"))]
status = json.load(open(os.path.join(root, "tools", "status.json")))
listed = set(re.findall(r"theories/(\w+)\.v", open(os.path.join(root, "rocq", "_CoqProject")).read()))
thms = {}
for f in sorted(glob.glob(os.path.join(root, "rocq", "theories", "Prop*.v"))):
    if os.path.basename(f)[:-2] not in listed:
        continue
    for name in re.findall(r"^Theorem (c\d\d\w*)", open(f).read(), re.M):
        thms.setdefault("C" + name[1:].split("_")[0], []).append(name)
claims = []
for p in props:
    if p not in thms:
        continue
    st = status.get(p, {})
    claims.append({"property": p, "status": st.get("status", "proved"),
                   "theorems": thms[p], "note": st.get("note", "")})
json.dump({"claims": claims}, open(os.path.join(root, "MANIFEST.json"), "w"), indent=1)
print(len(claims), "of", len(props), "properties;", sum(map(len, thms.values())), "theorems")
missing = [p for p in props if p not in thms]
print("without theorem:", " ".join(missing))
