#!/usr/bin/env python3
"""Regenerate MANIFEST.json: collects the theorems Cnn_* of rocq/theories/P_*.v; status and note per
property come from tools/status.json ({"C01": ["proved", "note"]})."""
import re, json, glob, os
root = os.path.dirname(os.path.dirname(os.path.abspath(__file__)))
st = json.load(open(f"{root}/tools/status.json"))
th = {}
for f in sorted(glob.glob(f"{root}/rocq/theories/P_*.v")):
    for m in re.finditer(r"^\s*Theorem\s+((C\d+)_\w+)", open(f).read(), re.M):
        th.setdefault(m.group(2), []).append(m.group(1))
claims = []
for l in open(f"{root}/properties.jsonl"):
    p = json.loads(l)["id"]
    if p in th:
        s, n = st.get(p, ["partial", "no status given"])
        claims.append({"property": p, "status": s, "theorems": th[p], "note": n})
    elif p in st and st[p][0] == "not_applicable":
        claims.append({"property": p, "status": "not_applicable", "theorems": [], "note": st[p][1]})
json.dump({"claims": claims}, open(f"{root}/MANIFEST.json", "w"), indent=1)
print(len(claims), "claims", sum(len(c["theorems"]) for c in claims), "theorems",
      [p for p in th if p not in st])
