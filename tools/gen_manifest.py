#!/usr/bin/env python3
"""Regenerates MANIFEST.json: collects theorem names Cnn_* from Props/*.v."""
import re, json, glob, os
root = os.path.join(os.path.dirname(__file__), "..")
props = [json.loads(l) for l in open(os.path.join(root, "properties.jsonl"))]
ths = {}
for f in sorted(glob.glob(os.path.join(root, "rocq/theories/Props/*.v"))):
    for m in re.finditer(r"^Theorem (C\d\d+)_(\w+)", open(f).read(), re.M):
        ths.setdefault(m.group(1), []).append(m.group(1) + "_" + m.group(2))
import sys; sys.path.insert(0, os.path.dirname(os.path.abspath(__file__)))
from notes import FAULT, NOTE
holds = {}
for i, (_, hs) in FAULT.items():
    for h in hs: holds.setdefault(h, []).append(i)
def note(i):
    out = []
    if i in NOTE: out.append(NOTE[i])
    if i in FAULT:
        why, hs = FAULT[i]
        out.append("Violated by the code, with a counterexample proved: " + (why if '_' in why.split()[0] else why[0].upper() + why[1:]))
        if hs: out.append("What holds instead is proved under " + ", ".join(hs) + ".")
    elif i in holds: out.append("The neighbouring claim the code violates is stated as " + ", ".join(holds[i]) + ".")
    return " ".join(out)
claims = []
for p in props:
    i = p["id"]; t = ths.get(i, [])
    if not t:
        claims.append({"property": i, "status": "not_applicable", "theorems": [], "note": note(i) or "not yet modelled"}); continue
    st = "partial" if any(x.endswith("_refuted") or x.endswith("_partial") for x in t) else "proved"
    claims.append({"property": i, "status": st, "theorems": t, "note": note(i)})
json.dump({"claims": claims}, open(os.path.join(root, "MANIFEST.json"), "w"), indent=1, ensure_ascii=False)
print({s: sum(c["status"] == s for c in claims) for s in ("proved", "partial", "not_applicable")})
