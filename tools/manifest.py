#!/usr/bin/env python3
"""Generates ../MANIFEST.json: theorem names are the Cxx_ theorems of rocq/theories/Prop_*.v;
status and note come from the table below."""
import glob, json, os, re
here = os.path.dirname(os.path.abspath(__file__))
T = {}
for f in sorted(glob.glob(os.path.join(here, "../rocq/theories/Prop_*.v"))):
    for m in re.finditer(r"^Theorem ((C\d+)_\w+)", open(f).read(), re.M):
        T.setdefault(m.group(2), []).append(m.group(1))
NOTES = {}
exec(open(os.path.join(here, "notes.py")).read())
claims = []
for l in open(os.path.join(here, "../properties.jsonl")):
    i = json.loads(l)["id"]
    ths = T.get(i, [])
    if not ths:
        if i in NOTES: claims.append(dict(property=i, status="not_applicable", theorems=[], note=NOTES[i]))
        continue
    partial = any(t.endswith("_partial") or "_refuted" in t for t in ths)
    claims.append(dict(property=i, status="partial" if partial else "proved", theorems=ths, note=NOTES.get(i, "")))
json.dump({"claims": claims}, open(os.path.join(here, "../MANIFEST.json"), "w"), indent=1, ensure_ascii=False)
from collections import Counter
print(Counter(c["status"] for c in claims), [c["property"] for c in claims if c["status"] == "not_applicable"])
