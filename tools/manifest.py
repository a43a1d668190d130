#!/usr/bin/env python3
"""Rebuild MANIFEST.json: collect theorems named Cnn_* from rocq/theories/P_*.v;
status and notes come from tools/status.json."""
import re, glob, json, os
root = os.path.dirname(os.path.dirname(os.path.abspath(__file__)))
props = [json.loads(l)["id"] for l in open(root + "/properties.jsonl")]
st = json.load(open(root + "/tools/status.json"))
th = {}
for f in sorted(glob.glob(root + "/rocq/theories/P_*.v")):
    for m in re.finditer(r"^Theorem (C\d+)_([\w']+)", open(f).read(), re.M):
        th.setdefault(m[1], []).append(m[1] + "_" + m[2])
claims = []
for p in props:
    if p not in th: continue
    ts = th[p]
    s = st.get(p, {})
    d = "partial" if any(t.endswith("_partial") for t in ts) else "proved"
    claims.append(dict(property=p, status=s.get("status", d), theorems=ts, note=s.get("note", "")))
for p in props:
    if p not in th and p in st and st[p].get("status") == "not_applicable":
        claims.append(dict(property=p, status="not_applicable", theorems=[], note=st[p]["note"]))
json.dump(dict(claims=claims), open(root + "/MANIFEST.json", "w"), ensure_ascii=False, indent=1)
print(len(claims), "claims;", "missing:", [p for p in props if p not in th])
